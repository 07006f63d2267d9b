(** The tables of the SQL parser against the grammar: checks of the certificate in ParserCert by
    computation, and what they mean. *)
From Coq Require Import String Ascii List ZArith Bool Lia.
From Verif Require Import Lexer ParserTables ParserValues ParserActions Parser SpecGrammar ParserCert.
Import ListNotations.
Local Open Scope Z_scope.

Definition or_nil {A} (o : option (list A)) : list A := match o with Some l => l | None => [] end.
Definition rhs_of (i : Z) : list Z := or_nil (at_index rhs_tree i).
Definition kernel (s : Z) : list (Z * Z) := or_nil (at_index kernel_tree s).
Definition closed (s : Z) : list Z := or_nil (at_index closed_tree s).
Definition potential (s : Z) : Z := get_or 0 (at_index potentials_tree s).
Definition lhs_of (i : Z) : Z := get_or 0 (at_index yy_r1 i).
Definition access (s : Z) : Z := get_or 0 (at_index yy_chk s).

Fixpoint numbers (from : Z) (n : nat) : list Z :=
  match n with O => [] | S k => from :: numbers (from + 1) k end.
Lemma numbers_in n : forall from z, from <= z < from + Z.of_nat n -> In z (numbers from n).
Proof.
  induction n as [|n IH]; intros from z H; [lia|]. cbn [numbers]. destruct (Z.eq_dec z from) as [->|N]; [now left|].
  right. apply IH. lia.
Qed.
Definition states : list Z := numbers 0 1702.
Definition state (s : Z) : Prop := 0 <= s < 1702.
Lemma states_in s : state s -> In s states.
Proof. intros H. apply numbers_in. exact H. Qed.
Definition stateb (s : Z) : bool := (0 <=? s) && (s <? 1702).
Lemma stateb_spec s : stateb s = true <-> state s.
Proof. unfold stateb, state. rewrite andb_true_iff, Z.leb_le, Z.ltb_lt. reflexivity. Qed.

(** ** Symbols and their numbers *)
Fixpoint place (name : string) (l : list (string * value_type)) (i : Z) : Z :=
  match l with
  | [] => 0
  | (x, _) :: l' => if String.eqb x name then i else place name l' (i + 1)
  end.
Definition code (x : symbol) : Z :=
  match x with Terminal k => token_code k | Nonterminal name => - place name nonterminals 1 end.
Definition decode (z : Z) : option symbol :=
  if z <? 0 then match at_index nonterminal_tree (- z - 1) with Some (name, _) => Some (Nonterminal name) | None => None end
  else if z <=? 3 then None
  else match at_index known_tokens_tree z with Some k => Some (Terminal k) | None => None end.
(** The number of [x] tells what it is, or it is not in the grammar. *)
Definition faithful (x : symbol) : Prop := 0 <= code x <= 3 \/ decode (code x) = Some x.

Definition symbol_eqb (x y : symbol) : bool :=
  match x, y with
  | Terminal KEnd, Terminal KEnd => true
  | Terminal (KChar a), Terminal (KChar b) => Ascii.eqb a b
  | Terminal (KTok a), Terminal (KTok b) => String.eqb a b
  | Nonterminal a, Nonterminal b => String.eqb a b
  | _, _ => false
  end.
Lemma symbol_eqb_eq x y : symbol_eqb x y = true -> x = y.
Proof.
  destruct x as [[|a|a]|a], y as [[|b|b]|b]; cbn; try discriminate; intros H;
    try (apply Ascii.eqb_eq in H; now subst); try (apply String.eqb_eq in H; now subst); reflexivity.
Qed.
Definition decodes (x : symbol) : bool :=
  match decode (code x) with Some y => symbol_eqb y x | None => false end.
Lemma decodes_spec x : decodes x = true -> decode (code x) = Some x.
Proof. unfold decodes. destruct (decode (code x)); [|discriminate]. intros H. apply symbol_eqb_eq in H. now subst. Qed.

Definition small (z : Z) : bool := (0 <=? z) && (z <=? 3).
Lemma chars_faithful : forallb (fun i => let x := Terminal (KChar (ascii_of_N (Z.to_N i))) in small (code x) || decodes x)
  (numbers 0 256) = true.
Proof. vm_compute. reflexivity. Qed.
Lemma names_faithful : forallb (fun p => let x := Terminal (KTok (fst p)) in small (code x) || decodes x) token_numbers = true.
Proof. vm_compute. reflexivity. Qed.

Lemma number_of_or name l : number_of name l = 1 \/ exists z, In (name, z) l.
Proof.
  induction l as [|[x z] l IH]; [now left|]. cbn [number_of]. destruct (String.eqb_spec x name) as [->|N].
  - right. exists z. now left.
  - destruct IH as [IH|[y IH]]; [now left|]. right. exists y. now right.
Qed.
Lemma small_or x : small (code x) || decodes x = true -> faithful x.
Proof.
  intros H. apply orb_true_iff in H. destruct H as [H|H]; [left|right; now apply decodes_spec].
  unfold small in H. apply andb_true_iff in H. rewrite !Z.leb_le in H. lia.
Qed.
Lemma token_faithful k : faithful (Terminal k).
Proof.
  destruct k as [|a|a].
  - left. vm_compute. split; discriminate.
  - apply small_or. pose proof chars_faithful as H. rewrite forallb_forall in H.
    assert (I : In (Z.of_N (N_of_ascii a)) (numbers 0 256)).
    { apply numbers_in. split; [apply N2Z.is_nonneg|]. change (0 + Z.of_nat 256) with (Z.of_N 256). apply N2Z.inj_lt. apply N_ascii_bounded. }
    specialize (H _ I). cbv beta zeta in H. now rewrite N2Z.id, ascii_N_embedding in H.
  - destruct (number_of_or a token_numbers) as [H|[z H]].
    + left. cbn [code token_code char_of]. unfold token_code, char_of. rewrite H. vm_compute. split; discriminate.
    + apply small_or. pose proof names_faithful as F. rewrite forallb_forall in F. exact (F _ H).
Qed.
Lemma token_range k : 1 <= token_code k <= 315.
Proof.
  assert (C : forallb (fun i => let z := token_code (KChar (ascii_of_N (Z.to_N i))) in (1 <=? z) && (z <=? 315)) (numbers 0 256) = true)
    by (vm_compute; reflexivity).
  assert (N : forallb (fun p => let z := token_code (KTok (fst p)) in (1 <=? z) && (z <=? 315)) token_numbers = true)
    by (vm_compute; reflexivity).
  rewrite forallb_forall in C, N. destruct k as [|a|a].
  - vm_compute. split; discriminate.
  - assert (I : In (Z.of_N (N_of_ascii a)) (numbers 0 256)).
    { apply numbers_in. split; [apply N2Z.is_nonneg|]. change (0 + Z.of_nat 256) with (Z.of_N 256). apply N2Z.inj_lt. apply N_ascii_bounded. }
    specialize (C _ I). cbv beta zeta in C. rewrite N2Z.id, ascii_N_embedding, andb_true_iff, !Z.leb_le in C. exact C.
  - destruct (number_of_or a token_numbers) as [H|[z H]].
    + unfold token_code, char_of. rewrite H. vm_compute. split; discriminate.
    + specialize (N _ H). cbv beta zeta in N. rewrite andb_true_iff, !Z.leb_le in N. exact N.
Qed.

Lemma token_end k : k <> KChar c_nul -> token_code k = 1 -> k = KEnd.
Proof.
  assert (C : forallb (fun i => negb (token_code (KChar (ascii_of_N (Z.to_N i))) =? 1)) (numbers 1 255) = true)
    by (vm_compute; reflexivity).
  assert (N : forallb (fun p => negb (token_code (KTok (fst p)) =? 1)) token_numbers = true)
    by (vm_compute; reflexivity).
  rewrite forallb_forall in C, N. destruct k as [|a|a]; intros Hn H; [reflexivity| |].
  - exfalso. assert (I : In (Z.of_N (N_of_ascii a)) (numbers 1 255)).
    { apply numbers_in. pose proof (N_ascii_bounded a). change (1 + Z.of_nat 255) with (Z.of_N 256). split; [|now apply N2Z.inj_lt].
      assert (N_of_ascii a <> 0%N); [|lia]. intros E. apply Hn. f_equal. rewrite <- (ascii_N_embedding a), E. reflexivity. }
    specialize (C _ I). rewrite N2Z.id, ascii_N_embedding, H in C. discriminate.
  - exfalso. destruct (number_of_or a token_numbers) as [E|[z E]].
    + unfold token_code, char_of in H. rewrite E in H. vm_compute in H. discriminate.
    + specialize (N _ E). cbn [fst] in N. rewrite H in N. discriminate.
Qed.

(** ** Productions *)
Definition production_ok (i : Z) (p : string * list symbol) : bool :=
  match at_index yy_r1 i, at_index yy_r2 i with
  | Some nt, Some len =>
      (len =? Z.of_nat (length (snd p))) && (code (Nonterminal (fst p)) =? - nt) && (0 <? nt) && decodes (Nonterminal (fst p)) &&
      forallb decodes (snd p) &&
      (fix same (xs : list symbol) (zs : list Z) := match xs, zs with
        | [], [] => true | x :: xs', z :: zs' => (code x =? z) && same xs' zs' | _, _ => false end) (snd p) (rhs_of i)
  | _, _ => false
  end.
Fixpoint productions_ok (i : Z) (l : list (string * list symbol)) : bool :=
  match l with [] => true | p :: l' => production_ok i p && productions_ok (i + 1) l' end.
Lemma productions_checked : productions_ok 1 (tl productions) = true.
Proof. vm_compute. reflexivity. Qed.
Lemma productions_length : length productions = 999%nat.
Proof. reflexivity. Qed.

Lemma productions_ok_nth l : forall i n p, productions_ok i l = true -> nth_error l n = Some p -> production_ok (i + Z.of_nat n) p = true.
Proof.
  induction l as [|x l IH]; intros i n p H E; [destruct n; discriminate|].
  cbn [productions_ok] in H. apply andb_true_iff in H. destruct H as [H1 H2]. destruct n as [|n].
  - injection E as <-. now rewrite Z.add_0_r.
  - cbn in E. specialize (IH _ _ _ H2 E). replace (i + Z.of_nat (S n)) with (i + 1 + Z.of_nat n) by lia. exact IH.
Qed.
Lemma production_at i : 1 <= i <= 998 -> exists name xs, production i = Some (name, xs) /\
  at_index yy_r2 i = Some (Z.of_nat (length xs)) /\ at_index yy_r1 i = Some (lhs_of i) /\
  code (Nonterminal name) = - lhs_of i /\ 0 < lhs_of i /\ decode (code (Nonterminal name)) = Some (Nonterminal name) /\
  (forall x, In x xs -> decode (code x) = Some x) /\ map code xs = rhs_of i.
Proof.
  intros H. unfold production. replace (i <? 0) with false by (symmetry; apply Z.ltb_ge; lia).
  destruct (nth_error productions (Z.to_nat i)) as [[name xs]|] eqn:E.
  2:{ apply nth_error_None in E. rewrite productions_length in E. lia. }
  exists name, xs. split; [reflexivity|].
  assert (E' : nth_error (tl productions) (Z.to_nat (i - 1)) = Some (name, xs)).
  { assert (X : forall A (l : list A) n, nth_error (tl l) n = nth_error l (S n)) by (intros A [|a l] [|n]; reflexivity).
    rewrite X. rewrite <- E. f_equal. lia. }
  pose proof (productions_ok_nth _ _ _ _ productions_checked E') as P.
  replace (1 + Z.of_nat (Z.to_nat (i - 1))) with i in P by lia. unfold production_ok in P.
  unfold lhs_of. destruct (at_index yy_r1 i) as [nt|]; [|discriminate]. destruct (at_index yy_r2 i) as [len|]; [|discriminate].
  cbn [fst snd get_or] in *. rewrite !andb_true_iff in P. destruct P as [[[[[P1 P2] P3] P4] P5] P6].
  apply Z.eqb_eq in P1, P2. apply Z.ltb_lt in P3. apply decodes_spec in P4.
  split; [now f_equal|]. split; [reflexivity|]. split; [exact P2|]. split; [exact P3|]. split; [exact P4|]. split.
  - intros x I. rewrite forallb_forall in P5. apply decodes_spec. auto.
  - clear -P6. revert P6. generalize (rhs_of i) as zs. induction xs as [|x xs IH]; intros [|z zs] H; cbn in H; try discriminate; [reflexivity|].
    apply andb_true_iff in H. destruct H as [H1 H2]. apply Z.eqb_eq in H1. cbn. f_equal; auto.
Qed.

(** Symbols with the same numbers are the same. *)
Lemma same_symbols xs : forall ys, map code xs = map code ys -> (forall x, In x xs -> faithful x) ->
  (forall y, In y ys -> decode (code y) = Some y) -> xs = ys.
Proof.
  induction xs as [|x xs IH]; intros [|y ys] E Fx Fy; try discriminate; [reflexivity|].
  injection E as E1 E2. f_equal; [|apply IH; [exact E2| |]; intros z Hz; [apply Fx|apply Fy]; now right].
  assert (Dy : decode (code y) = Some y) by (apply Fy; now left).
  destruct (Fx x (or_introl eq_refl)) as [F|F].
  - exfalso. rewrite E1 in F. unfold decode in Dy.
    replace (code y <? 0) with false in Dy by (symmetry; apply Z.ltb_ge; lia).
    replace (code y <=? 3) with true in Dy by (symmetry; apply Z.leb_le; lia). discriminate.
  - rewrite E1, Dy in F. congruence.
Qed.

(** ** States *)

(** Item [i] with the point at [d] in state [s]. *)
Definition item (i d s : Z) : bool :=
  if d =? 0 then existsb (Z.eqb (lhs_of i)) (closed s)
  else existsb (fun x => (fst x =? i) && (snd x =? d)) (kernel s).
(** [s] can be entered from [t]: its items come from there. *)
Definition initial (i d t : Z) : bool := (i =? 0) && (d =? 0) && (t =? 0).
Definition edge (t s : Z) : bool :=
  forallb (fun x => (0 <? snd x) &&
    match nth_error (rhs_of (fst x)) (Z.to_nat (snd x - 1)) with Some z => z =? access s | None => false end &&
    (item (fst x) (snd x - 1) t || initial (fst x) (snd x - 1) t)) (kernel s).

(** The transition on a token, if the tables have one. *)
Definition shift (t token : Z) : option Z :=
  let n := get_or 0 (at_index yy_pact t) in
  if n <=? yy_flag then None
  else let i := n + token in
    if (i <? 0) || (yy_last <=? i) then None
    else let a := get_or 0 (at_index yy_act i) in if access a =? token then Some a else None.

Fixpoint actions_of (l : list Z) : option (list Z) :=
  match l with
  | t :: a :: l' => if t <? 0 then Some [a] else match actions_of l' with Some r => Some (a :: r) | None => None end
  | _ => None
  end.
Fixpoint exceptions (s : Z) (l : list Z) : option (list Z) :=
  match l with
  | m :: s' :: l' => if (m =? -1) && (s' =? s) then actions_of l' else exceptions s l'
  | _ => None
  end.
(** What the default action of a state may be. *)
Definition defaults (s : Z) : option (list Z) :=
  match at_index yy_def s with
  | None => None
  | Some n => if n =? -2 then exceptions s exca_list else Some [n]
  end.

Definition state_ok (s : Z) : bool :=
  match at_index yy_pact s, at_index yy_chk s, defaults s with
  | Some _, Some c, Some l =>
      (c =? access s) &&
      forallb (fun a => (a =? 0) || ((a <? 0) && (s =? 1)) ||
        ((1 <=? a) && (a <=? 998) && item a (Z.of_nat (length (rhs_of a))) s)) l
  | _, _, _ => false
  end.
Lemma states_checked : forallb state_ok states = true.
Proof. vm_compute. reflexivity. Qed.

Definition act_ok (i : Z) : bool := match at_index yy_act i with Some a => stateb a | None => false end.
Lemma acts_checked : forallb act_ok (numbers 0 14695) = true.
Proof. vm_compute. reflexivity. Qed.

Definition shift_ok (t token : Z) : bool := match shift t token with Some s => edge t s && (1 <? token) | None => true end.
Lemma shifts_checked : forallb (fun t => if get_or 0 (at_index yy_pact t) <=? yy_flag then true else forallb (shift_ok t) (numbers 1 315)) states = true.
Proof. vm_compute. reflexivity. Qed.

Definition goto_ok (t nt : Z) : bool :=
  match goto t nt with Some s => stateb s && (access s =? - nt) && edge t s && negb (s =? 0) | None => false end.
Lemma gotos_checked : forallb (fun t => forallb (goto_ok t) (closed t)) states = true.
Proof. vm_compute. reflexivity. Qed.

Lemma state_facts s : state s -> (exists n, at_index yy_pact s = Some n) /\ at_index yy_chk s = Some (access s) /\
  exists l, defaults s = Some l /\ forall a, In a l -> a = 0 \/ (a < 0 /\ s = 1) \/
    (1 <= a <= 998 /\ item a (Z.of_nat (length (rhs_of a))) s = true).
Proof.
  intros H. pose proof states_checked as C. rewrite forallb_forall in C. specialize (C _ (states_in _ H)).
  unfold state_ok in C. destruct (at_index yy_pact s) as [n|]; [|discriminate]. split; [now exists n|].
  destruct (at_index yy_chk s) as [c|]; [|discriminate]. destruct (defaults s) as [l|]; [|discriminate].
  apply andb_true_iff in C. destruct C as [C1 C2]. apply Z.eqb_eq in C1. split; [now rewrite C1|]. exists l. split; [reflexivity|].
  intros a I. rewrite forallb_forall in C2. specialize (C2 _ I). rewrite !orb_true_iff, !andb_true_iff in C2.
  rewrite !Z.eqb_eq, Z.ltb_lt, !Z.leb_le in C2. intuition.
Qed.
Lemma act_facts i : 0 <= i < 14695 -> exists a, at_index yy_act i = Some a /\ state a.
Proof.
  intros H. pose proof acts_checked as C. rewrite forallb_forall in C. specialize (C i (numbers_in 14695 0 i H)).
  unfold act_ok in C. destruct (at_index yy_act i) as [a|]; [|discriminate]. exists a. split; [reflexivity|]. now apply stateb_spec.
Qed.
Lemma shift_facts t token s : state t -> 1 <= token <= 315 -> shift t token = Some s -> edge t s = true /\ access s = token /\ 1 < token.
Proof.
  intros Ht Hk H. pose proof shifts_checked as C. rewrite forallb_forall in C. specialize (C _ (states_in _ Ht)).
  destruct (get_or 0 (at_index yy_pact t) <=? yy_flag) eqn:F; [unfold shift in H; rewrite F in H; discriminate|].
  rewrite forallb_forall in C. specialize (C token (numbers_in 315 1 token ltac:(lia))). unfold shift_ok in C. rewrite H in C.
  apply andb_true_iff in C. rewrite Z.ltb_lt in C. split; [tauto|]. split; [|tauto].
  unfold shift in H. rewrite F in H. destruct ((_ <? 0) || _); [discriminate|].
  destruct (access _ =? token) eqn:E in H; [|discriminate]. injection H as <-. now apply Z.eqb_eq.
Qed.
Lemma goto_facts t nt : state t -> In nt (closed t) -> exists s, goto t nt = Some s /\ state s /\ access s = - nt /\ edge t s = true /\ s <> 0.
Proof.
  intros Ht I. pose proof gotos_checked as C. rewrite forallb_forall in C. specialize (C _ (states_in _ Ht)).
  rewrite forallb_forall in C. specialize (C _ I). unfold goto_ok in C. destruct (goto t nt) as [s|]; [|discriminate].
  rewrite !andb_true_iff in C. destruct C as [[[C1 C2] C3] C4]. exists s. split; [reflexivity|]. split; [now apply stateb_spec|].
  split; [now apply Z.eqb_eq|]. split; [exact C3|]. apply negb_true_iff in C4. now apply Z.eqb_neq.
Qed.

(** What a reduction by [i] in [s] says of the state below. *)
Lemma edge_item t s i d : edge t s = true -> 0 < d -> item i d s = true -> 1 <= i ->
  nth_error (rhs_of i) (Z.to_nat (d - 1)) = Some (access s) /\ item i (d - 1) t = true.
Proof.
  intros E D I Hi. unfold item in I. replace (d =? 0) with false in I by (symmetry; apply Z.eqb_neq; lia).
  apply existsb_exists in I. destruct I as ((p & e) & I & H). cbn [fst snd] in H. apply andb_true_iff in H.
  rewrite !Z.eqb_eq in H. destruct H as [-> ->]. unfold edge in E. rewrite forallb_forall in E. specialize (E _ I).
  cbn [fst snd] in E. rewrite !andb_true_iff in E. destruct E as [[_ E] F].
  destruct (nth_error (rhs_of i) (Z.to_nat (d - 1))) as [z|]; [|discriminate]. apply Z.eqb_eq in E. split; [now rewrite E|].
  apply orb_true_iff in F. destruct F as [F|F]; [exact F|]. unfold initial in F. rewrite !andb_true_iff, !Z.eqb_eq in F. lia.
Qed.

(** ** Reductions that read nothing *)
Fixpoint walk (t : Z) (xs : list Z) : option Z :=
  match xs with
  | [] => Some t
  | x :: xs' => match goto t (- x) with Some s => walk s xs' | None => None end
  end.
Definition wordless (i : Z) : bool := forallb (fun z => z <? 0) (rhs_of i).
Definition wordless_of (nt : Z) : list Z := filter (fun i => (lhs_of i =? nt) && wordless i) (numbers 1 998).
Definition wordless_tree : tree (list Z) := Eval vm_compute in tree_of (map wordless_of (numbers 0 214)).
Definition defaultsb (s i : Z) : bool := match defaults s with Some l => existsb (Z.eqb i) l | None => false end.
Definition potential_ok (t nt i : Z) : bool :=
  match walk t (rhs_of i), goto t nt with
  | Some s, Some s' => negb (defaultsb s i) || (potential s' <? potential s)
  | _, _ => true
  end.
Lemma potentials_checked : forallb (fun t => forallb (fun nt => forallb (potential_ok t nt) (or_nil (at_index wordless_tree nt))) (closed t)) states = true.
Proof. vm_compute. reflexivity. Qed.
Lemma wordless_checked : forallb (fun i => negb (wordless i) || existsb (Z.eqb i) (or_nil (at_index wordless_tree (lhs_of i)))) (numbers 1 998) = true.
Proof. vm_compute. reflexivity. Qed.
Lemma potential_range : forallb (fun s => (0 <=? potential s) && (potential s <=? 12)) states = true.
Proof. vm_compute. reflexivity. Qed.

Lemma potential_facts s : state s -> 0 <= potential s <= 12.
Proof.
  intros H. pose proof potential_range as C. rewrite forallb_forall in C. specialize (C _ (states_in _ H)).
  now rewrite andb_true_iff, !Z.leb_le in C.
Qed.
Lemma wordless_facts t i s s' : state t -> 1 <= i <= 998 -> In (lhs_of i) (closed t) -> (forall z, In z (rhs_of i) -> z < 0) ->
  walk t (rhs_of i) = Some s -> goto t (lhs_of i) = Some s' -> (exists l, defaults s = Some l /\ In i l) ->
  potential s' < potential s.
Proof.
  intros Ht Hi Hc Hw W G (l & D & I). pose proof wordless_checked as C. rewrite forallb_forall in C.
  specialize (C i (numbers_in 998 1 i ltac:(lia))).
  assert (E : wordless i = true) by (apply forallb_forall; intros z Hz; apply Z.ltb_lt; auto). rewrite E in C. cbn [negb orb] in C.
  apply existsb_exists in C. destruct C as (j & J & Hj). apply Z.eqb_eq in Hj. subst j.
  pose proof potentials_checked as P. rewrite forallb_forall in P. specialize (P _ (states_in _ Ht)).
  rewrite forallb_forall in P. specialize (P _ Hc). rewrite forallb_forall in P. specialize (P _ J).
  unfold potential_ok in P. rewrite W, G in P. unfold defaultsb in P. rewrite D in P.
  replace (existsb (Z.eqb i) l) with true in P.
  - cbn [negb orb] in P. now apply Z.ltb_lt.
  - symmetry. apply existsb_exists. exists i. split; [exact I|]. apply Z.eqb_refl.
Qed.
