(** Proofs about the PostgreSQL connection string. *)
From Coq Require Import String Ascii List ZArith Bool Lia.
From Verif Require Import GoStr GoStrFacts SchemaParse AdapterPostgres SpecUrl.
Import ListNotations.
Local Open Scope string_scope.

Lemma every_app f a b : every f (a ++ b) = every f a && every f b.
Proof. induction a as [|c a IH]; cbn; [reflexivity|]. now rewrite IH, andb_assoc. Qed.

Lemma every_impl (f g : ascii -> bool) s : (forall c, f c = true -> g c = true) -> every f s = true -> every g s = true.
Proof.
  intros H. induction s as [|c s IH]; cbn; [easy|]. rewrite !andb_true_iff. intros [A B]. auto.
Qed.

Lemma cut_app c a b : every (fun x => negb (Ascii.eqb x c)) a = true -> cut c (a ++ String c b) = (a, Some b).
Proof.
  induction a as [|x a IH]; cbn; [now rewrite Ascii.eqb_refl|].
  rewrite andb_true_iff. intros [H K]. apply negb_true_iff in H. rewrite H, (IH K). reflexivity.
Qed.
Lemma cut_none c a : every (fun x => negb (Ascii.eqb x c)) a = true -> cut c a = (a, None).
Proof.
  induction a as [|x a IH]; cbn; [reflexivity|].
  rewrite andb_true_iff. intros [H K]. apply negb_true_iff in H. rewrite H, (IH K). reflexivity.
Qed.
Lemma cut_last_none c a : every (fun x => negb (Ascii.eqb x c)) a = true -> cut_last c a = None.
Proof.
  induction a as [|x a IH]; cbn; [reflexivity|].
  rewrite andb_true_iff. intros [H K]. apply negb_true_iff in H. now rewrite (IH K), H.
Qed.
Lemma cut_last_app c a b : every (fun x => negb (Ascii.eqb x c)) b = true -> cut_last c (a ++ String c b) = Some (a, b).
Proof.
  intros H. induction a as [|x a IH]; cbn.
  - now rewrite cut_last_none, Ascii.eqb_refl.
  - now rewrite IH.
Qed.

(** ** Escaped texts *)

Fixpoint plus (s : string) : string :=
  match s with
  | EmptyString => EmptyString
  | String c s' => String (if Ascii.eqb c " " then "+"%char else c) (plus s')
  end.

Definition all_ascii (P : ascii -> bool) : bool :=
  forallb (fun n => P (ascii_of_nat n)) (seq 0 256).
Lemma all_ascii_spec P : all_ascii P = true -> forall c, P c = true.
Proof.
  intros H c. unfold all_ascii in H. rewrite forallb_forall in H. specialize (H (nat_of_ascii c)).
  rewrite ascii_nat_embedding in H. apply H. apply in_seq. pose proof (nat_ascii_bounded c). lia.
Qed.

Definition escaped_char (c : ascii) : bool := alphanumeric c || one_of "-_.~+%" c.

Lemma escape_step c : unreserved c = false -> Ascii.eqb c " " = false ->
  let n := N_of_ascii c in
  escaped_char (hex_digit (n / 16)) = true /\ escaped_char (hex_digit (n mod 16)) = true /\
  hex_value (hex_digit (n / 16)) = Some (n / 16)%N /\ hex_value (hex_digit (n mod 16)) = Some (n mod 16)%N.
Proof.
  intros _ _ n. subst n.
  assert (G : forall c, (escaped_char (hex_digit (N_of_ascii c / 16)) && escaped_char (hex_digit (N_of_ascii c mod 16)) &&
     match hex_value (hex_digit (N_of_ascii c / 16)) with Some x => (x =? N_of_ascii c / 16)%N | None => false end &&
     match hex_value (hex_digit (N_of_ascii c mod 16)) with Some x => (x =? N_of_ascii c mod 16)%N | None => false end) = true).
  { apply (all_ascii_spec (fun c => (escaped_char (hex_digit (N_of_ascii c / 16)) && escaped_char (hex_digit (N_of_ascii c mod 16)) &&
     match hex_value (hex_digit (N_of_ascii c / 16)) with Some x => (x =? N_of_ascii c / 16)%N | None => false end &&
     match hex_value (hex_digit (N_of_ascii c mod 16)) with Some x => (x =? N_of_ascii c mod 16)%N | None => false end))).
    vm_compute. reflexivity. }
  specialize (G c). rewrite !andb_true_iff in G. destruct G as [[[A B] C] D].
  destruct (hex_value (hex_digit (N_of_ascii c / 16))); [|discriminate].
  destruct (hex_value (hex_digit (N_of_ascii c mod 16))); [|discriminate].
  apply N.eqb_eq in C. apply N.eqb_eq in D. subst. auto.
Qed.

Lemma unreserved_escaped c : unreserved c = true -> escaped_char c = true /\ Ascii.eqb c "%" = false /\ Ascii.eqb c " " = false.
Proof.
  intros H. assert (G : forall c, implb (unreserved c) (escaped_char c && negb (Ascii.eqb c "%") && negb (Ascii.eqb c " ")) = true).
  { apply (all_ascii_spec (fun c => implb (unreserved c) (escaped_char c && negb (Ascii.eqb c "%") && negb (Ascii.eqb c " ")))).
    vm_compute. reflexivity. }
  specialize (G c). rewrite H in G. cbn [implb] in G. rewrite !andb_true_iff, !negb_true_iff in G. tauto.
Qed.

Lemma escape_chars s : every escaped_char (query_escape s) = true.
Proof.
  induction s as [|c s IH]; cbn [query_escape]; [reflexivity|].
  destruct (unreserved c) eqn:U.
  - cbn [every]. now rewrite (proj1 (unreserved_escaped c U)), IH.
  - destruct (Ascii.eqb c " ") eqn:S; [cbn [every]; now rewrite IH|].
    destruct (escape_step c U S) as (A & B & _). cbv zeta. cbn [every]. now rewrite A, B, IH.
Qed.

Lemma percent_decode_plain c r : Ascii.eqb c "%" = false ->
  percent_decode (String c r) = match percent_decode r with Some d => Some (String c d) | None => None end.
Proof.
  intros H. cbn [percent_decode]. rewrite H.
  destruct c as [[] [] [] [] [] [] [] []]; try reflexivity. discriminate H.
Qed.

Lemma decode_escape s : percent_decode (query_escape s) = Some (plus s).
Proof.
  induction s as [|c s IH]; cbn [query_escape plus]; [reflexivity|].
  destruct (unreserved c) eqn:U.
  - destruct (unreserved_escaped c U) as (_ & A & B). now rewrite percent_decode_plain, IH, B.
  - destruct (Ascii.eqb c " ") eqn:S; [now rewrite percent_decode_plain, IH|].
    destruct (escape_step c U S) as (_ & _ & C & D). cbv zeta. cbn [percent_decode]. rewrite C, D, IH.
    rewrite <- (N.div_mod (N_of_ascii c) 16) by discriminate. now rewrite ascii_N_embedding.
Qed.

Lemma plus_fixed s : plus s = s <-> has_char " " s = false.
Proof.
  induction s as [|c s IH]; cbn; [easy|]. rewrite orb_false_iff, <- IH.
  destruct (Ascii.eqb c " ") eqn:E; split; intros H.
  - injection H as H1 H2. apply Ascii.eqb_eq in E. congruence.
  - easy.
  - injection H as ->. auto.
  - destruct H as [_ ->]. reflexivity.
Qed.

Lemma percent_decode_id s : every (fun c => negb (Ascii.eqb c "%")) s = true -> percent_decode s = Some s.
Proof.
  induction s as [|c s IH]; intros H; [reflexivity|].
  cbn [every] in H. apply andb_true_iff in H. destruct H as [A B]. apply negb_true_iff in A.
  now rewrite percent_decode_plain, (IH B).
Qed.

(** ** Decimal ports *)
Lemma show_nat_decimal z : (0 <= z)%Z -> every decimal (show_Z z) = true.
Proof.
  intros H. unfold show_Z. destruct z as [|p|p]; [reflexivity| |lia].
  cbn [Z.to_int]. unfold Decimal.norm, DecimalString.NilZero.string_of_int.
  assert (G : forall d, every decimal (DecimalString.NilEmpty.string_of_uint d) = true).
  { induction d; cbn; auto. }
  unfold DecimalString.NilZero.string_of_uint. destruct (Pos.to_uint p) eqn:E; try reflexivity;
    rewrite <- ?E; match goal with |- every _ ?x = _ => change x with (DecimalString.NilEmpty.string_of_uint (Pos.to_uint p)) end || idtac.
  all: first [apply G | rewrite <- E; apply G | apply (G (_ _))].
Qed.

(** ** The whole URL *)
Lemma char_sub (f g : ascii -> bool) : all_ascii (fun c => implb (f c) (g c)) = true -> forall c, f c = true -> g c = true.
Proof. intros H c F. pose proof (all_ascii_spec _ H c) as K. cbv beta in K. now rewrite F in K. Qed.

Definition host_text_char (c : ascii) : bool := alphanumeric c || one_of "-._:" c.

Local Notation nctl := (fun c => negb (control c)).
Local Notation ne x := (fun c => negb (Ascii.eqb c x)).

Lemma read_parts U P h port D O u w :
  every escaped_char U = true -> every escaped_char P = true ->
  plain_host h -> every decimal port = true -> plain_path D ->
  every (fun c => negb (control c || one_of "#" c)) O = true ->
  percent_decode U = Some u -> percent_decode P = Some w ->
  read_url ("postgres://" ++ U ++ ":" ++ P ++ "@" ++ (h ++ ":" ++ port) ++ "/" ++ D ++ "?" ++ O) =
    Some (mkConnection u w h port D).
Proof.
  intros HU HP Hh Hp HD HO EU EP. unfold plain_host, plain_path in *.
  pose (sub := fun (f g : ascii -> bool) (s : string) (H : every f s = true) (E : all_ascii (fun c => implb (f c) (g c)) = true) =>
     every_impl f g s (char_sub f g E) H).
  assert (Hhp : every host_text_char (h ++ ":" ++ port) = true).
  { rewrite !every_app. cbn [every]. rewrite (sub _ host_text_char _ Hh eq_refl), (sub _ host_text_char _ Hp eq_refl). reflexivity. }
  unfold read_url.
  assert (C : every (fun c => negb (control c)) ("postgres://" ++ U ++ ":" ++ P ++ "@" ++ (h ++ ":" ++ port) ++ "/" ++ D ++ "?" ++ O) = true).
  { rewrite !every_app. rewrite (sub _ nctl U HU eq_refl), (sub _ nctl P HP eq_refl), (sub _ nctl D HD eq_refl), (sub _ nctl O HO eq_refl).
    rewrite (sub _ nctl h Hh eq_refl), (sub _ nctl port Hp eq_refl). reflexivity. }
  rewrite C. cbn [negb].
  rewrite (cut_none "#").
  2:{ rewrite !every_app. rewrite (sub _ (ne "#"%char) U HU eq_refl), (sub _ (ne "#"%char) P HP eq_refl), (sub _ (ne "#"%char) D HD eq_refl),
        (sub _ (ne "#"%char) O HO eq_refl), (sub _ (ne "#"%char) h Hh eq_refl), (sub _ (ne "#"%char) port Hp eq_refl). reflexivity. }
  replace ("postgres://" ++ U ++ ":" ++ P ++ "@" ++ (h ++ ":" ++ port) ++ "/" ++ D ++ "?" ++ O)
    with (("postgres://" ++ U ++ ":" ++ P ++ "@" ++ (h ++ ":" ++ port) ++ "/" ++ D) ++ String "?" O)
    by (rewrite !sapp_assoc; reflexivity).
  rewrite (cut_app "?").
  2:{ rewrite !every_app. rewrite (sub _ (ne "?"%char) U HU eq_refl), (sub _ (ne "?"%char) P HP eq_refl), (sub _ (ne "?"%char) D HD eq_refl),
        (sub _ (ne "?"%char) h Hh eq_refl), (sub _ (ne "?"%char) port Hp eq_refl). reflexivity. }
  cbn [append].
  replace (U ++ String ":" (P ++ String "@" ((h ++ String ":" port) ++ String "/" D)))
    with ((U ++ String ":" (P ++ String "@" (h ++ String ":" port))) ++ String "/" D)
    by (rewrite !sapp_assoc; cbn [append]; rewrite !sapp_assoc; cbn [append]; rewrite !sapp_assoc; reflexivity).
  rewrite (cut_app "/").
  2:{ rewrite every_app. cbn [every]. rewrite every_app. cbn [every]. rewrite every_app. cbn [every].
      rewrite (sub _ (ne "/"%char) U HU eq_refl), (sub _ (ne "/"%char) P HP eq_refl),
        (sub _ (ne "/"%char) h Hh eq_refl), (sub _ (ne "/"%char) port Hp eq_refl). reflexivity. }
  replace (U ++ String ":" (P ++ String "@" (h ++ String ":" port)))
    with ((U ++ String ":" P) ++ String "@" (h ++ String ":" port))
    by (rewrite !sapp_assoc; reflexivity).
  rewrite (cut_last_app "@").
  2:{ rewrite every_app. cbn [every]. rewrite (sub _ (ne "@"%char) h Hh eq_refl), (sub _ (ne "@"%char) port Hp eq_refl). reflexivity. }
  rewrite (cut_app ":" U P) by exact (sub _ (ne ":"%char) U HU eq_refl).
  rewrite every_app. cbn [every]. rewrite (sub _ user_char U HU eq_refl), (sub _ user_char P HP eq_refl).
  rewrite every_app. cbn [every]. rewrite (sub _ host_char h Hh eq_refl), (sub _ host_char port Hp eq_refl).
  cbn [andb]. rewrite (cut_last_app ":" h port) by exact (sub _ (ne ":"%char) port Hp eq_refl).
  rewrite EU, EP, (percent_decode_id D) by exact (sub _ (ne "%"%char) D HD eq_refl).
  rewrite Hp. reflexivity.
Qed.

Lemma option_list_plain a b : plain_option a -> plain_option b ->
  every (fun c => negb (control c || one_of "#" c))
    (join "&" (app (match a with Some x => ["sslmode=" ++ x] | None => [] end)
                   (match b with Some x => ["sslrootcert=" ++ x] | None => [] end))) = true.
Proof.
  destruct a as [a|], b as [b|]; cbn [plain_option app join]; intros A B; rewrite ?every_app, ?A, ?B; reflexivity.
Qed.

Lemma dsn_reads a b c : plain_option a -> plain_option b ->
  cf_socket c = "" -> plain_host (cf_host c) -> (0 <= cf_port c)%Z -> plain_path (cf_database c) ->
  read_url (build_dsn a b c) =
    Some (mkConnection (plus (cf_user c)) (plus (cf_password c)) (cf_host c) (show_Z (cf_port c)) (cf_database c)).
Proof.
  intros A B E H P D. unfold build_dsn. cbv zeta. rewrite E. cbn [String.eqb].
  apply read_parts; auto using escape_chars, show_nat_decimal, decode_escape, option_list_plain.
Qed.

Lemma dsn_exact a b c : plain_option a -> plain_option b ->
  cf_socket c = "" -> plain_host (cf_host c) -> (0 <= cf_port c)%Z -> plain_path (cf_database c) ->
  (read_url (build_dsn a b c) =
     Some (mkConnection (cf_user c) (cf_password c) (cf_host c) (show_Z (cf_port c)) (cf_database c)) <->
   has_char " " (cf_user c) = false /\ has_char " " (cf_password c) = false).
Proof.
  intros A B E H P D. rewrite (dsn_reads a b c) by assumption. rewrite <- !plus_fixed. split.
  - intros [= X Y]. auto.
  - intros [X Y]. now rewrite X, Y.
Qed.
