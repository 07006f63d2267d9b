(** Numbers written by sqldef and read back. *)
From Coq Require Import String Ascii List ZArith Bool Arith Lia SpecFloat DecimalString DecimalPos.
From Verif Require Import GoStr GoStrFacts GoNum Ast Keywords Lexer Numerals SpecLexer SpecNumerals ProofLexer ProofScan ProofTokens ProofReadback Generator.
Import ListNotations.
Local Open Scope string_scope.
Local Open Scope Z_scope.

(** ** Integers *)
Lemma decimal_pos d : forall p, digits_value (Zpos p) (NilEmpty.string_of_uint d) = Some (Zpos (Pos.of_uint_acc d p)).
Proof.
  induction d as [|d IH|d IH|d IH|d IH|d IH|d IH|d IH|d IH|d IH|d IH]; intros p; [reflexivity|..];
    cbn [NilEmpty.string_of_uint digits_value Pos.of_uint_acc is_digit between];
    match goal with |- (if ?x then _ else _) = _ => change x with true end; cbv iota;
    rewrite <- IH; f_equal; unfold digit_value; cbn [N_of_ascii]; rewrite ?Pos2Z.inj_add, ?Pos2Z.inj_mul; cbn [Z.of_N N_of_digits]; lia.
Qed.

Lemma decimal_uint d : digits_value 0 (NilEmpty.string_of_uint d) = Some (Z.of_N (Pos.of_uint d)).
Proof.
  induction d as [|d IH|d IH|d IH|d IH|d IH|d IH|d IH|d IH|d IH|d IH]; [reflexivity|exact IH|..]; apply decimal_pos.
Qed.

Lemma to_uint_not_nil p : Pos.to_uint p <> Decimal.Nil.
Proof. intros H. pose proof (Unsigned.of_to p) as X. now rewrite H in X. Qed.

Lemma show_Z_pos p : show_Z (Zpos p) = NilEmpty.string_of_uint (Pos.to_uint p).
Proof. unfold show_Z. cbn. pose proof (to_uint_not_nil p). now destruct (Pos.to_uint p). Qed.
Lemma show_Z_neg p : show_Z (Zneg p) = ("-" ++ show_Z (Zpos p))%string.
Proof. rewrite show_Z_pos. unfold show_Z. cbn. pose proof (to_uint_not_nil p). now destruct (Pos.to_uint p). Qed.

Lemma show_Z_decimal z : 0 <= z -> digits_value 0 (show_Z z) = Some z.
Proof.
  intros H. destruct z as [|p|p]; [reflexivity| |lia]. rewrite show_Z_pos, decimal_uint. now rewrite Unsigned.of_to.
Qed.

Lemma decimal_digits s : forall acc z, digits_value acc s = Some z -> digits s.
Proof.
  induction s as [|c s IH]; intros acc z; [intros _; apply all_of_nil|]. cbn [digits_value].
  destruct (is_digit c) eqn:E; [|discriminate]. intros H. apply all_of_cons. split; [now apply is_digit_spec|now apply (IH _ _ H)].
Qed.

Lemma digits_decimal s : digits s -> forall acc, exists z, digits_value acc s = Some z.
Proof.
  induction s as [|c s IH]; intros H acc; [now exists acc|]. apply all_of_cons in H. destruct H as [H1 H2].
  apply is_digit_spec in H1. cbn [digits_value]. rewrite H1. now apply IH.
Qed.

Lemma show_Z_digits z : 0 <= z -> digits (show_Z z) /\ show_Z z <> "".
Proof.
  intros H. split; [eapply decimal_digits, show_Z_decimal, H|]. destruct z as [|p|p]; [discriminate| |lia].
  rewrite show_Z_pos. pose proof (to_uint_not_nil p). now destruct (Pos.to_uint p).
Qed.

Lemma digit_not_sign_char c : digit c -> Ascii.eqb c "-" = false /\ Ascii.eqb c "+" = false.
Proof. intros H. apply is_digit_spec in H. split; apply Ascii.eqb_neq; intros ->; discriminate. Qed.

Lemma split_sign_digits s : digits s -> split_sign s = (false, s).
Proof.
  destruct s as [|c s]; [reflexivity|]. intros H. apply all_of_cons in H. destruct H as [H _].
  apply digit_not_sign_char in H. destruct H as [H1 H2]. unfold split_sign. now rewrite H1, H2.
Qed.

Lemma atoi_digits s n : s <> "" -> digits_value 0 s = Some n -> n <= int_max -> atoi s = (n, true).
Proof.
  intros H1 H2 H3. unfold atoi. rewrite split_sign_digits by (eapply decimal_digits, H2).
  destruct (String.eqb_spec s ""); [easy|]. rewrite H2.
  assert (P : forall s acc z, 0 <= acc -> digits_value acc s = Some z -> 0 <= z).
  { clear. induction s as [|c s IH]; intros acc z A; cbn [digits_value]; [intros [= <-]; exact A|].
    destruct (is_digit c) eqn:E; [|discriminate]. apply IH. unfold digit_value. unfold is_digit, between in E.
    apply andb_true_iff in E. destruct E as [E _]. apply N.leb_le in E. change (N_of_ascii "0") with 48%N in E. lia. }
  pose proof (P s 0 n ltac:(lia) H2). unfold int_min, int_max in *.
  replace (n <? - 2 ^ 63) with false by (symmetry; apply Z.ltb_ge; lia).
  replace (2 ^ 63 - 1 <? n) with false by (symmetry; apply Z.ltb_ge; lia). reflexivity.
Qed.

Lemma decimal_nonneg s : forall acc z, 0 <= acc -> digits_value acc s = Some z -> 0 <= z.
Proof.
  induction s as [|c s IH]; intros acc z A; cbn [digits_value]; [intros [= <-]; exact A|].
  destruct (is_digit c) eqn:E; [|discriminate]. apply IH. unfold digit_value. unfold is_digit, between in E.
  apply andb_true_iff in E. destruct E as [E _]. apply N.leb_le in E. change (N_of_ascii "0") with 48%N in E. lia.
Qed.

Lemma atoi_negative s n : s <> "" -> digits_value 0 s = Some n -> int_min <= - n -> atoi ("-" ++ s)%string = (- n, true).
Proof.
  intros H1 H2 H3. unfold atoi. cbn [append split_sign Ascii.eqb Bool.eqb].
  destruct (String.eqb_spec s ""); [easy|]. rewrite H2. pose proof (decimal_nonneg s 0 n ltac:(lia) H2). unfold int_min, int_max in *.
  replace (- n <? - 2 ^ 63) with false by (symmetry; apply Z.ltb_ge; lia).
  replace (2 ^ 63 - 1 <? - n) with false by (symmetry; apply Z.ltb_ge; lia). reflexivity.
Qed.

Lemma atoi_show z : int_min <= z <= int_max -> atoi (show_Z z) = (z, true).
Proof.
  intros [H1 H2]. destruct (Z.leb_spec 0 z) as [P|P].
  - apply atoi_digits; [now apply show_Z_digits|now apply show_Z_decimal|exact H2].
  - destruct z as [|p|p]; try lia. rewrite show_Z_neg. change (Zneg p) with (- Zpos p). apply atoi_negative.
    + apply show_Z_digits. lia.
    + apply show_Z_decimal. lia.
    + exact H1.
Qed.

Lemma show_Z_token m z : tokens m (show_Z z) = Tokens [(KTok "INTEGRAL", show_Z z)].
Proof.
  assert (N : forall z, 0 <= z -> number (KTok "INTEGRAL") (show_Z z) "").
  { intros y Hy. destruct (show_Z_digits y Hy) as [D1 D2]. destruct (show_Z y) as [|c s]; [easy|]. apply all_of_cons in D1.
    destruct D1 as [D1 D3]. apply num_integer; [exact D1|exact D3|apply ends_nil]. }
  destruct (Z.leb_spec 0 z) as [P|P].
  - apply reads_one; [|discriminate|].
    + intros E. apply show_Z_digits in P. rewrite E in P. destruct P as [P _]. apply all_of_cons in P. destruct P as [P _].
      apply is_digit_spec in P. discriminate.
    + apply lx_number; [now apply N|apply ends_nil|apply ends_nil].
  - destruct z as [|p|p]; try lia. rewrite show_Z_neg. apply reads_one; [discriminate|discriminate|].
    apply (lx_negative m 0 (KTok "INTEGRAL") (show_Z (Zpos p)) ""); [apply N; lia|apply ends_nil|apply ends_nil].
Qed.

(** ** Floats *)
Lemma digits2_pos_bound p : 2 ^ (Zpos (digits2_pos p) - 1) <= Zpos p < 2 ^ Zpos (digits2_pos p).
Proof.
  induction p as [p IH|p IH|]; cbn [digits2_pos]; [| |cbn; lia].
  all: rewrite Pos2Z.inj_succ; replace (Z.succ (Zpos (digits2_pos p)) - 1) with (Z.succ (Zpos (digits2_pos p) - 1)) by lia;
    rewrite !Z.pow_succ_r by lia; lia.
Qed.

Lemma digits2_bound n : 0 < n -> 2 ^ (Zdigits2 n - 1) <= n < 2 ^ Zdigits2 n.
Proof. destruct n as [|p|p]; try lia. intros _. apply digits2_pos_bound. Qed.

Lemma digits2_unique n d : 0 < n -> 2 ^ (d - 1) <= n < 2 ^ d -> 1 <= d -> Zdigits2 n = d.
Proof.
  intros H1 [H2 H3] H4. pose proof (digits2_bound n H1) as [B1 B2].
  assert (P : 1 <= Zdigits2 n) by (destruct n as [|p|p]; cbn; lia).
  assert (Zdigits2 n - 1 < d) by (apply (Z.pow_lt_mono_r_iff 2); lia).
  assert (d - 1 < Zdigits2 n) by (apply (Z.pow_lt_mono_r_iff 2); lia). lia.
Qed.

Lemma pow_split a b : 0 <= a -> 0 <= b -> 2 ^ (a + b) = 2 ^ a * 2 ^ b.
Proof. intros. apply Z.pow_add_r; lia. Qed.

Lemma round_to m l : 0 <= m -> m <= round_nearest_even m l <= m + 1.
Proof. intros H. unfold round_nearest_even. destruct l as [|[]]; [lia| |lia|lia]. destruct (Z.even m); lia. Qed.

Lemma shr_1_half m r s : 0 <= m -> shr_m (shr_1 (Build_shr_record m r s)) = m / 2.
Proof.
  intros H. destruct m as [|p|p]; [reflexivity| |lia]. destruct p as [p|p|]; cbn [shr_1 shr_m]; [| |reflexivity].
  - change (Zpos p~1) with (2 * Zpos p + 1). symmetry. rewrite Z.mul_comm, Z.div_add_l by lia. change (1 / 2) with 0. lia.
  - change (Zpos p~0) with (2 * Zpos p). symmetry. rewrite Z.mul_comm. apply Z.div_mul. lia.
Qed.

Lemma record_of_loc m l : shr_m (shr_record_of_loc m l) = m.
Proof. destruct l as [|[]]; reflexivity. Qed.

(** Rounding a quotient with 53 or 54 binary digits. *)
Lemma round_quotient neg q e l : 2 ^ 52 <= q < 2 ^ 54 -> -1000 <= e <= 0 ->
  exists M M1 f, binary_round_aux 53 1024 neg q e l = S754_finite neg M f /\
    ((q < 2 ^ 53 /\ q <= M1 <= q + 1 /\ (M1 = Zpos M /\ f = e \/ M1 = 2 * Zpos M /\ f = e + 1)) \/
     (2 ^ 53 <= q /\ q / 2 <= M1 <= q / 2 + 1 /\ (M1 = Zpos M /\ f = e + 1 \/ M1 = 2 * Zpos M /\ f = e + 2))).
Proof.
  intros [Q1 Q2] He. unfold binary_round_aux.
  (* the second shift *)
  assert (T : forall M1 f, 2 ^ 52 <= M1 <= 2 ^ 53 -> -1000 <= f <= 1 ->
    exists M g, (let '(mrs, g) := shr_fexp 53 1024 M1 f loc_Exact in
      match shr_m mrs with
      | Z0 => S754_zero neg
      | Zpos m => if Zle_bool g (1024 - 53) then S754_finite neg m g else S754_infinity neg
      | _ => S754_nan
      end) = S754_finite neg M g /\ (M1 = Zpos M /\ g = f \/ M1 = 2 * Zpos M /\ g = f + 1)).
  { intros M1 f HM Hf. unfold shr_fexp. destruct (Z.eq_dec M1 (2 ^ 53)) as [->|N].
    - assert (D : Zdigits2 (2 ^ 53) = 54) by reflexivity. rewrite D. unfold fexp, emin.
      replace (Z.max (54 + f - 53) (3 - 1024 - 53) - f) with 1 by lia.
      exists (2 ^ 52)%positive, (f + 1). split; [|right; split; reflexivity].
      cbn [shr iter_pos shr_record_of_loc]. change (shr_m (shr_1 _)) with (Zpos (2 ^ 52)).
      replace (Zle_bool (f + 1) (1024 - 53)) with true by (symmetry; apply Zle_imp_le_bool; lia). reflexivity.
    - rewrite (digits2_unique M1 53) by (try lia; cbn in *; lia). unfold fexp, emin.
      replace (Z.max (53 + f - 53) (3 - 1024 - 53) - f) with 0 by lia. cbn [shr]. rewrite record_of_loc.
      destruct M1 as [|p|p]; [cbn in HM; lia| |cbn in HM; lia]. exists p, f.
      replace (Zle_bool f (1024 - 53)) with true by (symmetry; apply Zle_imp_le_bool; lia). split; [reflexivity|]. left. now split. }
  unfold shr_fexp at 1. destruct (Z.ltb_spec q (2 ^ 53)) as [L|L].
  - rewrite (digits2_unique q 53) by (try lia; cbn in *; lia). unfold fexp, emin.
    replace (Z.max (53 + e - 53) (3 - 1024 - 53) - e) with 0 by lia. cbn [shr]. rewrite record_of_loc.
    pose proof (round_to q (loc_of_shr_record (shr_record_of_loc q l)) ltac:(lia)) as R.
    set (M1 := round_nearest_even q (loc_of_shr_record (shr_record_of_loc q l))) in *.
    destruct (T M1 e) as (M & g & E & HM); [lia|lia|]. exists M, M1, g. split; [exact E|]. left. split; [exact L|]. split; [exact R|exact HM].
  - rewrite (digits2_unique q 54) by (try lia; cbn in *; lia). unfold fexp, emin.
    replace (Z.max (54 + e - 53) (3 - 1024 - 53) - e) with 1 by lia. cbn [shr iter_pos].
    assert (X : shr_m (shr_1 (shr_record_of_loc q l)) = q / 2).
    { pose proof (record_of_loc q l) as R0. destruct (shr_record_of_loc q l) as [m r s]. cbn in R0. subst m. apply shr_1_half. lia. }
    rewrite X. assert (B : 2 ^ 52 <= q / 2 < 2 ^ 53).
    { split; [apply Z.div_le_lower_bound; cbn in *; lia|apply Z.div_lt_upper_bound; cbn in *; lia]. }
    pose proof (round_to (q / 2) (loc_of_shr_record (shr_1 (shr_record_of_loc q l))) ltac:(lia)) as R.
    set (M1 := round_nearest_even (q / 2) _) in *.
    destruct (T M1 (e + 1)) as (M & g & E & HM); [lia|lia|]. exists M, M1, g. split; [exact E|]. right. split; [exact L|]. split; [exact R|].
    destruct HM as [[H1 H2]|[H1 H2]]; [left|right]; split; auto. lia.
Qed.

(** A multiple [a] of one millionth, below 2^32. *)
Lemma nearest_close neg n d a : 0 < d -> 0 < a -> n * 1000000 = a * d -> a < 2 ^ 32 * 1000000 ->
  exists M f, nearest neg n d = S754_finite neg M f /\ f < 0 /\
    2 * Z.abs (Zpos M * 1000000 - a * 2 ^ (- f)) < 2 ^ (- f).
Proof.
  intros Hd Ha E L. assert (Hn : 0 < n) by nia. assert (Ln : n < 2 ^ 32 * d) by nia. assert (Gn : d <= n * 1000000) by nia.
  unfold nearest, SFdiv_core_binary.
  pose proof (digits2_bound n Hn) as [N1 N2]. pose proof (digits2_bound d Hd) as [D1 D2].
  set (d1 := Zdigits2 n) in *. set (d2 := Zdigits2 d) in *.
  assert (P1 : 1 <= d1) by (unfold d1; destruct n as [|p|p]; cbn; lia).
  assert (P2 : 1 <= d2) by (unfold d2; destruct d as [|p|p]; cbn; lia).
  assert (U : d1 - d2 <= 32).
  { assert (d1 - 1 < 32 + d2); [|lia]. apply (Z.pow_lt_mono_r_iff 2); [lia|lia|]. rewrite (pow_split 32 d2) by lia. nia. }
  assert (W : -20 <= d1 - d2).
  { assert (d2 - 1 < d1 + 20); [|lia]. apply (Z.pow_lt_mono_r_iff 2); [lia|lia|]. rewrite (pow_split d1 20) by lia.
    change (2 ^ 20) with 1048576. nia. }
  unfold fexp, emin. replace (d1 + 0 - (d2 + 0)) with (d1 - d2) by lia.
  replace (Z.min (Z.max (d1 - d2 - 53) (3 - 1024 - 53)) (0 - 0)) with (d1 - d2 - 53) by lia.
  set (e := d1 - d2 - 53). replace (0 - 0 - e) with (- e) by lia.
  assert (Es : exists p, - e = Zpos p) by (exists (Z.to_pos (- e)); unfold e; lia).
  destruct Es as [p Ep]. 
  assert (Sh : match - e with 0 => n | Zpos _ => Z.shiftl n (- e) | Zneg _ => 0 end = n * 2 ^ (- e)).
  { rewrite Ep. rewrite <- Ep. apply Z.shiftl_mul_pow2. lia. }
  rewrite Sh. destruct (Z.div_eucl (n * 2 ^ (- e)) d) as [q r] eqn:DE.
  pose proof (Z_div_mod (n * 2 ^ (- e)) d ltac:(lia)) as DM. rewrite DE in DM. destruct DM as [DM DR].
  assert (Pe : 0 < 2 ^ (- e)) by (apply Z.pow_pos_nonneg; lia).
  assert (Qlo : 2 ^ 52 <= q).
  { assert (2 ^ 52 * d < (q + 1) * d); [|nia].
    assert (X : 2 ^ 52 * 2 ^ d2 = 2 ^ (d1 - 1) * 2 ^ (- e)).
    { rewrite <- !pow_split by (unfold e; lia). f_equal. unfold e. lia. }
    assert (2 ^ 52 * d < 2 ^ 52 * 2 ^ d2) by (apply Zmult_lt_compat_l; [reflexivity|exact D2]).
    assert (2 ^ (d1 - 1) * 2 ^ (- e) <= n * 2 ^ (- e)) by (apply Z.mul_le_mono_nonneg_r; lia). nia. }
  assert (Qhi : q < 2 ^ 54).
  { assert (q * d < 2 ^ 54 * d); [|nia].
    assert (X : 2 ^ d1 * 2 ^ (- e) = 2 ^ 54 * 2 ^ (d2 - 1)).
    { rewrite <- !pow_split by (unfold e; lia). f_equal. unfold e. lia. }
    assert (n * 2 ^ (- e) < 2 ^ d1 * 2 ^ (- e)) by (apply Zmult_lt_compat_r; lia).
    assert (2 ^ 54 * 2 ^ (d2 - 1) <= 2 ^ 54 * d) by (apply Z.mul_le_mono_nonneg_l; [discriminate|exact D1]). nia. }
  destruct (round_quotient neg q e (new_location d r)) as (M & M1 & f & RE & RC); [lia|unfold e; lia|].
  exists M, f. split; [rewrite <- RE; generalize (binary_round_aux 53 1024 neg q e (new_location d r)); clear - Hn; now destruct n|].
  (* the value before halving: M1 * 2^e1 *)
  assert (C : exists e1, e1 <= -21 /\ Z.abs (M1 * d - n * 2 ^ (- e1)) <= d /\ (M1 = Zpos M /\ f = e1 \/ M1 = 2 * Zpos M /\ f = e1 + 1)).
  { destruct RC as [(R1 & R2 & R3)|(R1 & R2 & R3)].
    - exists e. split; [unfold e; lia|]. split; [|exact R3].
      clear - DM DR R2 Hd. assert (H : M1 * d - n * 2 ^ (- e) = (M1 - q) * d - r) by (rewrite DM; ring). rewrite H.
      assert (C : M1 - q = 0 \/ M1 - q = 1) by lia. destruct C as [-> | ->]; lia.
    - exists (e + 1). assert (E21 : e <> -21).
      { intros X. assert (2 ^ 53 * d <= n * 2 ^ (- e)) by nia. rewrite X in H. change (2 ^ (- -21)) with (2 ^ 21) in H.
        change (2 ^ 53) with (2 ^ 32 * 2 ^ 21) in H. change (2 ^ 21) with 2097152 in H. nia. }
      split; [unfold e in *; lia|]. split.
      + assert (H2 : 2 ^ (- e) = 2 * 2 ^ (- (e + 1))).
        { replace (- e) with (1 + - (e + 1)) by lia. rewrite pow_split by (unfold e; lia). reflexivity. }
        set (h := 2 ^ (- (e + 1))) in *. pose proof (Z.div_mod q 2 ltac:(lia)) as Hq. pose proof (Z.mod_pos_bound q 2 ltac:(lia)) as Hq2.
        set (x := q / 2) in *. set (y := q mod 2) in *.
        assert (K : n * h * 2 = (2 * x + y) * d + r) by (rewrite <- Hq; transitivity (n * (2 * h)); [ring|]; rewrite <- H2, DM; ring).
        clear - K Hd DR Hq2 R2. assert (H : 2 * (M1 * d - n * h) = (2 * (M1 - x) - y) * d - r) by (transitivity (2 * M1 * d - n * h * 2); [ring|]; rewrite K; ring).
        assert (C : M1 - x = 0 \/ M1 - x = 1) by lia. assert (Y : y = 0 \/ y = 1) by lia.
        destruct C as [C|C], Y as [-> | ->]; rewrite C in H; lia.
      + destruct R3 as [[H1 H2]|[H1 H2]]; [left|right]; split; auto. lia. }
  destruct C as (e1 & C1 & C2 & C3).
  assert (P : 2097152 <= 2 ^ (- e1)).
  { change 2097152 with (2 ^ 21). apply Z.pow_le_mono_r; lia. }
  (* in millionths *)
  assert (A : Z.abs (M1 * 1000000 - a * 2 ^ (- e1)) <= 1000000).
  { set (h := 2 ^ (- e1)) in *. assert (X : (M1 * 1000000 - a * h) * d = (M1 * d - n * h) * 1000000)
      by (transitivity (M1 * 1000000 * d - (a * d) * h); [ring|]; rewrite <- E; ring).
    clear - X C2 Hd. set (u := M1 * 1000000 - a * h) in *. set (w := M1 * d - n * h) in *. clearbody u w.
    destruct (Z.leb_spec (Z.abs u) 1000000) as [U|U]; [exact U|exfalso].
    assert (1000001 * d <= Z.abs u * d) by (apply Z.mul_le_mono_nonneg_r; lia).
    assert (Z.abs u * d = Z.abs (u * d)) by (rewrite Z.abs_mul, (Z.abs_eq d) by lia; reflexivity). lia. }
  destruct C3 as [[X1 X2]|[X1 X2]].
  - subst f. rewrite <- X1. split; lia.
  - subst f. split; [lia|]. assert (H2 : 2 ^ (- e1) = 2 * 2 ^ (- (e1 + 1))).
    { replace (- e1) with (1 + - (e1 + 1)) by lia. rewrite pow_split by lia. reflexivity. }
    set (h := 2 ^ (- (e1 + 1))) in *. clearbody h. rewrite H2, X1 in A. clear - A P H2.
    replace (2 * Zpos M * 1000000 - a * (2 * h)) with (2 * (Zpos M * 1000000 - a * h)) in A by ring. lia.
Qed.

Lemma round_near n d a : 0 < d -> 2 * Z.abs (n - a * d) < d -> round_half_even n d = a.
Proof.
  intros Hd H. unfold round_half_even. destruct (Z.leb_spec (a * d) n) as [L|L].
  - assert (Q : n / d = a) by (symmetry; apply (Z.div_unique_pos n d a (n - a * d)); lia).
    assert (R : n mod d = n - a * d) by (rewrite Z.mod_eq by lia; rewrite Q; lia). rewrite Q, R.
    replace (2 * (n - a * d) ?= d) with Lt by (symmetry; apply Z.compare_lt_iff; lia). reflexivity.
  - assert (Q : n / d = a - 1) by (symmetry; apply (Z.div_unique_pos n d (a - 1) (n - (a - 1) * d)); lia).
    assert (R : n mod d = n - (a - 1) * d) by (rewrite Z.mod_eq by lia; rewrite Q; lia). rewrite Q, R.
    replace (2 * (n - (a - 1) * d) ?= d) with Gt by (symmetry; apply Z.compare_gt_iff; lia). lia.
Qed.

Definition six_decimals (neg : bool) (a : Z) : string :=
  ((if neg then "-" else "") ++ show_Z (a / 1000000) ++ "." ++ pad_digits 6 (a mod 1000000))%string.

Lemma show_nearest neg n d a : 0 < d -> 0 <= a -> n * 1000000 = a * d -> a < 2 ^ 32 * 1000000 ->
  show_f (nearest neg n d) = six_decimals neg a.
Proof.
  intros Hd Ha E L. destruct (Z.eq_dec a 0) as [->|N].
  - assert (n = 0) by nia. subst n. reflexivity.
  - destruct (nearest_close neg n d a) as (M & f & -> & Hf & C); try assumption; [lia|]. unfold show_f.
    replace (0 <=? f) with false by (symmetry; apply Z.leb_gt; lia).
    rewrite (round_near _ _ a); [reflexivity|apply Z.pow_pos_nonneg; lia|exact C].
Qed.

Lemma show_scaled neg n k a : 0 <= a -> a < 2 ^ 32 * 1000000 ->
  (0 <= k /\ n * 10 ^ k * 1000000 = a \/ k < 0 /\ n * 1000000 = a * 10 ^ (- k)) ->
  show_f (scaled neg n k) = six_decimals neg a.
Proof.
  intros Ha L H. unfold scaled. destruct (Z.leb_spec 0 k) as [P|P].
  - destruct H as [[_ H]|[H _]]; [|lia]. apply show_nearest; lia.
  - destruct H as [[H _]|[_ H]]; [lia|]. apply show_nearest; try assumption. apply Z.pow_pos_nonneg; lia.
Qed.

(** ** Texts *)
Lemma digits_value_amount s : digits s -> digits_value 0 s = Some (amount s).
Proof.
  unfold amount. generalize 0 as acc. induction s as [|c s IH]; intros acc H; [reflexivity|].
  apply all_of_cons in H. destruct H as [H1 H2]. apply is_digit_spec in H1. cbn [digits_value list_ascii_of_string fold_left].
  rewrite H1. rewrite IH by exact H2. unfold digit_value. reflexivity.
Qed.

Lemma digits_value_app a b : forall acc, digits_value acc (a ++ b)%string =
  match digits_value acc a with Some z => digits_value z b | None => None end.
Proof. induction a as [|c a IH]; intros acc; [reflexivity|]. cbn [append digits_value]. destruct (is_digit c); [apply IH|reflexivity]. Qed.

Lemma digits_app a b : digits (a ++ b)%string <-> digits a /\ digits b.
Proof.
  induction a as [|c a IH]; cbn [append]; [split; [split; [apply all_of_nil|exact H]|tauto]|].
  unfold digits in *. rewrite !all_of_cons, IH. tauto.
Qed.

Lemma one_digit acc r : 0 <= r < 10 -> digits_value acc (show_Z r) = Some (10 * acc + r).
Proof.
  intros H. assert (C : r = 0 \/ r = 1 \/ r = 2 \/ r = 3 \/ r = 4 \/ r = 5 \/ r = 6 \/ r = 7 \/ r = 8 \/ r = 9) by lia.
  repeat (destruct C as [-> |C]; [cbn; f_equal; lia|]). subst r. cbn. f_equal; lia.
Qed.

Lemma one_digit_length r : 0 <= r < 10 -> String.length (show_Z r) = 1%nat.
Proof.
  intros H. assert (C : r = 0 \/ r = 1 \/ r = 2 \/ r = 3 \/ r = 4 \/ r = 5 \/ r = 6 \/ r = 7 \/ r = 8 \/ r = 9) by lia.
  repeat (destruct C as [-> |C]; [reflexivity|]). now subst r.
Qed.

Lemma pad_value k : forall acc z, 0 <= z < 10 ^ Z.of_nat k -> digits_value acc (pad_digits k z) = Some (acc * 10 ^ Z.of_nat k + z).
Proof.
  induction k as [|k IH]; intros acc z H; [cbn in *; f_equal; lia|]. cbn [pad_digits]. rewrite digits_value_app.
  rewrite Nat2Z.inj_succ, Z.pow_succ_r in * by lia.
  pose proof (Z.div_mod z 10 ltac:(lia)) as D. pose proof (Z.mod_pos_bound z 10 ltac:(lia)) as B.
  rewrite IH by (split; [apply Z.div_pos; lia|apply Z.div_lt_upper_bound; lia]).
  rewrite one_digit by exact B. f_equal. rewrite D at 3. ring.
Qed.

Lemma pad_length k z : String.length (pad_digits k z) = k.
Proof.
  revert z. induction k as [|k IH]; intros z; [reflexivity|]. cbn [pad_digits]. rewrite sapp_length, IH.
  rewrite one_digit_length by (apply Z.mod_pos_bound; lia). lia.
Qed.

Lemma six_parts a : 0 <= a ->
  digits (show_Z (a / 1000000)) /\ show_Z (a / 1000000) <> "" /\ digits (pad_digits 6 (a mod 1000000)) /\
  amount (show_Z (a / 1000000) ++ pad_digits 6 (a mod 1000000)) = a.
Proof.
  intros Ha. pose proof (Z.div_pos a 1000000 Ha ltac:(lia)) as P. pose proof (Z.mod_pos_bound a 1000000 ltac:(lia)) as B.
  destruct (show_Z_digits _ P) as [D1 D2].
  assert (V : digits_value 0 (show_Z (a / 1000000) ++ pad_digits 6 (a mod 1000000)) = Some a).
  { rewrite digits_value_app, show_Z_decimal by exact P. rewrite pad_value by exact B. f_equal.
    change (10 ^ Z.of_nat 6) with 1000000. pose proof (Z.div_mod a 1000000 ltac:(lia)). lia. }
  pose proof (decimal_digits _ _ _ V) as D. apply digits_app in D. destruct D as [_ D3]. split; [exact D1|]. split; [exact D2|]. split; [exact D3|].
  assert (V2 := digits_value_amount _ (proj2 (digits_app _ _) (conj D1 D3))). congruence.
Qed.

Lemma six_literal neg a : 0 <= a -> decimal_literal (six_decimals neg a) neg a (-6).
Proof.
  intros Ha. destruct (six_parts a Ha) as (D1 & D2 & D3 & D4). unfold six_decimals.
  pose proof (dl_fraction neg (show_Z (a / 1000000)) (pad_digits 6 (a mod 1000000)) "" 0 D1 D3) as L.
  rewrite D4, pad_length, sapp_nil_r in L. change (0 - Z.of_nat 6) with (-6) in L. unfold sign in L.
  apply L; [|constructor]. intros X. apply D2. now destruct (show_Z (a / 1000000)).
Qed.

Lemma six_token m neg a : 0 <= a -> tokens m (six_decimals neg a) = Tokens [(KTok "FLOAT", six_decimals neg a)].
Proof.
  intros Ha. destruct (six_parts a Ha) as (D1 & D2 & D3 & _). unfold six_decimals.
  destruct (show_Z (a / 1000000)) as [|d w]; [easy|]. apply all_of_cons in D1. destruct D1 as [D0 D1].
  pose proof (num_fraction d w (pad_digits 6 (a mod 1000000)) "" D0 D1 D3) as N.
  assert (Q : d <> "?"%char) by (intros ->; apply is_digit_spec in D0; discriminate).
  destruct neg; cbn [append].
  - apply reads_one; [discriminate|discriminate|].
    apply (lx_negative m 0 _ _ "" N); apply ends_nil.
  - apply reads_one; [intros [= X _]; now destruct Q|discriminate|].
    apply (lx_number m 0 _ _ "" N); apply ends_nil.
Qed.

Lemma split_sign_sign neg s : (forall c r, s = String c r -> Ascii.eqb c "-" = false /\ Ascii.eqb c "+" = false) ->
  split_sign (sign neg ++ s) = (neg, s).
Proof.
  intros H. destruct neg; [reflexivity|]. cbn [sign append]. destruct s as [|c s]; [reflexivity|].
  destruct (H c s eq_refl) as [H1 H2]. unfold split_sign. now rewrite H1, H2.
Qed.

Lemma power_parse x e neg n k : power x e ->
  (if String.eqb x "" then scaled neg n k
   else if at_class (one_of ["e"; "E"]%char) x then
     let (eneg, y) := split_sign (next x) in
     if String.eqb y "" then f_zero
     else match digits_value 0 y with None => f_zero | Some e => scaled neg n (k + (if eneg then - e else e)) end
   else f_zero) = scaled neg n (e + k).
Proof.
  intros H. destruct H as [|c w H1 H2 H3|c w H1 H2 H3|c w H1 H2 H3]; [reflexivity| | |]; cbn [String.eqb at_class next];
    rewrite (proj2 (e_spec c) H1); [rewrite split_sign_digits by exact H2| |]; cbn [append split_sign Ascii.eqb Bool.eqb];
    (destruct (String.eqb_spec w ""); [easy|]); rewrite digits_value_amount by exact H2; f_equal; lia.
Qed.

Lemma power_ends x e : power x e -> ends digit x /\ at_char "." x = false.
Proof.
  intros H. destruct H as [|c w H1 H2 H3|c w H1 H2 H3|c w H1 H2 H3]; [split; [apply ends_nil|reflexivity]| | |];
    (split; [intros d r [= <- _] D; apply digit_not_letter in D; apply D, among_eE, H1|]); cbn;
    apply Ascii.eqb_neq; intros ->; destruct H1 as [X|[X|[]]]; discriminate.
Qed.

Lemma span_digits w r : digits w -> ends digit r -> span is_digit (w ++ r) = (w, r).
Proof.
  intros H1 H2. apply span_app; [now apply (all_chars_spec _ _ _ is_digit_spec)|now apply (at_class_ends _ _ _ is_digit_spec)].
Qed.

Lemma dot_ends r : ends digit (String "." r).
Proof. intros c r' [= <- _] D. apply is_digit_spec in D. discriminate. Qed.

Lemma parse_literal s neg n k : decimal_literal s neg n k -> parse_float s = scaled neg n k.
Proof.
  intros H. destruct H as [neg w x e H1 H2 H3|neg w f x e H1 H2 H3 H4]; unfold parse_float.
  - rewrite split_sign_sign.
    2:{ intros c r E. destruct w as [|d w]; [easy|]. injection E as <- _. apply all_of_cons in H1. now apply digit_not_sign_char. }
    destruct (power_ends x e H3) as [X1 X2]. rewrite (span_digits w x H1 X1), X2. rewrite sapp_nil_r.
    destruct (String.eqb_spec w ""); [easy|]. rewrite digits_value_amount by exact H1.
    rewrite (power_parse x e neg _ _ H3). f_equal. cbn. lia.
  - rewrite split_sign_sign.
    2:{ intros c r E. destruct w as [|d w].
        - injection E as <- _. split; reflexivity.
        - injection E as <- _. apply all_of_cons in H1. now apply digit_not_sign_char. }
    destruct (power_ends x e H4) as [X1 X2]. change ("." ++ f ++ x)%string with (String "." (f ++ x)).
    rewrite (span_digits w _ H1 (dot_ends _)). cbn [at_char next]. rewrite Ascii.eqb_refl.
    rewrite (span_digits f x H2 X1). destruct (String.eqb_spec (w ++ f) ""); [easy|].
    rewrite digits_value_amount by (apply digits_app; auto). rewrite (power_parse x e neg _ _ H4). f_equal. 
Qed.

Lemma amount_nonneg s : digits s -> 0 <= amount s.
Proof. intros H. apply (decimal_nonneg s 0 _ (Z.le_refl 0)), digits_value_amount, H. Qed.

Lemma literal_nonneg s neg n k : decimal_literal s neg n k -> 0 <= n.
Proof. intros [? ? ? ? H|? ? ? ? ? H1 H2]; apply amount_nonneg; [exact H|apply digits_app; auto]. Qed.

(** A float default is written with the same value if it is a multiple of one millionth
    below 2^32. *)
Lemma float_default m s neg n k a : decimal_literal s neg n k -> millionths n k a -> a < 2 ^ 32 * 1000000 ->
  exists t, generate_default_definition (parse_value (mkSqlVal FloatVal s)) = Ok ("DEFAULT " ++ t)%string /\
    tokens m t = Tokens [(KTok "FLOAT", t)] /\ exists n' k', decimal_literal t neg n' k' /\ millionths n' k' a.
Proof.
  intros H1 H2 H3. assert (Ha : 0 <= a).
  { pose proof (literal_nonneg _ _ _ _ H1). destruct H2 as [[K <-]|[K E]].
    - pose proof (Z.pow_nonneg 10 k ltac:(lia)). nia.
    - assert (0 < 10 ^ (- k)) by (apply Z.pow_pos_nonneg; lia). nia. }
  exists (six_decimals neg a). split; [|split; [now apply six_token|]].
  - unfold parse_value, generate_default_definition. cbn [sv_type sv_val v_type v_float]. rewrite (parse_literal _ _ _ _ H1).
    now rewrite (show_scaled neg n k a Ha H3 H2).
  - exists a, (-6). split; [now apply six_literal|]. right. split; [lia|]. change (10 ^ (- -6)) with 1000000. reflexivity.
Qed.

Lemma integer_literal_atoi s z : integer_literal s z -> int_min <= z <= int_max -> atoi s = (z, true).
Proof.
  intros [w H1 H2|w H1 H2] [L1 L2].
  - apply atoi_digits; [exact H2|now apply digits_value_amount|exact L2].
  - apply atoi_negative; [exact H2|now apply digits_value_amount|exact L1].
Qed.

Lemma show_Z_literal z : integer_literal (show_Z z) z.
Proof.
  assert (P : forall z, 0 <= z -> integer_literal (show_Z z) z /\ amount (show_Z z) = z).
  { intros y Hy. destruct (show_Z_digits y Hy) as [D1 D2]. pose proof (show_Z_decimal y Hy) as V.
    rewrite digits_value_amount in V by exact D1. injection V as V. split; [|exact V]. rewrite <- V at 2. now apply il_plain. }
  destruct (Z.leb_spec 0 z) as [L|L]; [now apply P|]. destruct z as [|p|p]; try lia. rewrite show_Z_neg.
  destruct (P (Zpos p) ltac:(lia)) as [_ V]. destruct (show_Z_digits (Zpos p) ltac:(lia)) as [D1 D2].
  pose proof (il_negative _ D1 D2) as I. rewrite V in I. exact I.
Qed.

Lemma integer_default m s z : integer_literal s z -> int_min <= z <= int_max ->
  exists t, generate_default_definition (parse_value (mkSqlVal IntVal s)) = Ok ("DEFAULT " ++ t)%string /\
    tokens m t = Tokens [(KTok "INTEGRAL", t)] /\ integer_literal t z.
Proof.
  intros H1 H2. exists (show_Z z). split; [|split; [apply show_Z_token|apply show_Z_literal]].
  unfold parse_value, generate_default_definition. cbn [sv_type sv_val v_type v_int]. now rewrite (integer_literal_atoi s z H1 H2).
Qed.

Lemma bit_default m v :
  exists t, generate_default_definition (parse_value (mkSqlVal BitVal v)) = Ok ("DEFAULT " ++ t)%string /\
    (tokens m t = Tokens [(KTok "BIT_LITERAL", v)] <-> v = "0" \/ v = "1").
Proof.
  destruct (String.eqb_spec v "1") as [->|N].
  - exists "b'1'". split; [reflexivity|]. split; [auto|]. intros _. destruct m; vm_compute; reflexivity.
  - exists "b'0'". split.
    { unfold generate_default_definition, parse_value. cbn [v_type sv_type sv_val v_bit].
      apply String.eqb_neq in N. now rewrite N. }
    assert (E : tokens m "b'0'" = Tokens [(KTok "BIT_LITERAL", "0")]) by (destruct m; vm_compute; reflexivity).
    rewrite E. split; [intros [= <-]; now left|]. intros [V|V]; [now rewrite V|easy].
Qed.
