(** Proofs for C106 on MySQL. *)
From Coq Require Import String Ascii List ZArith Bool.
From Verif Require Import GoStr GoStrFacts Ast Generator SpecPlan SpecColumns SpecOrder SpecMysql SpecConverge SpecResumeMy ProofPlan
  ProofSteps ProofTables ProofCompare ProofExact ProofObjects ProofColumns ProofSelf ProofOrder ProofMysql ProofConverge ProofSettle ProofNoop ProofEdit.
Import ListNotations.
Local Open Scope string_scope.
Local Open Scope list_scope.

Lemma names_of_created t : names (created_table t) = names t.
Proof. unfold names. cbn [created_table t_columns]. now rewrite map_map. Qed.

(** ** Where an added column goes *)
Lemma split_once {A} (x : A) a b c d : NoDup (a ++ x :: b) -> a ++ x :: b = c ++ x :: d -> a = c /\ b = d.
Proof.
  revert c. induction a as [|y a IH]; intros c N E; destruct c as [|z c]; cbn in *.
  - injection E as ->. now split.
  - injection E as <- ->. inversion N as [|? ? H _]; subst. destruct H. apply in_or_app. right. now left.
  - injection E as -> E. inversion N as [|? ? H _]; subst. destruct H. apply in_or_app. right. now left.
  - injection E as -> E. inversion N as [|? ? _ N']; subst. destruct (IH c N' E) as [-> ->]. now split.
Qed.
Lemma mem_app x a b : mem x (a ++ b) = mem x a || mem x b.
Proof. apply eq_true_iff_eq. rewrite orb_true_iff, !mem_in. apply in_app_iff. Qed.
Lemma filter_inserted x A B D : ~ In x D -> filter (fun z => mem z (A ++ x :: B)) D = filter (fun z => mem z (A ++ B)) D.
Proof.
  intros N. apply filter_ext_in. intros z Z. apply eq_true_iff_eq. rewrite !mem_in, !in_app_iff. cbn [In].
  split; [|tauto]. intros [H|[H|H]]; [now left|subst z; contradiction|now right].
Qed.
Lemma order_inserted x A B D1 D2 : NoDup (A ++ B) -> NoDup (D1 ++ x :: D2) -> ~ In x (A ++ B) ->
  (A = [] /\ D1 = [] \/ exists p A0 D0, A = A0 ++ [p] /\ D1 = D0 ++ [p]) ->
  same_relative_order (A ++ B) (D1 ++ x :: D2) -> same_relative_order (A ++ x :: B) (D1 ++ x :: D2).
Proof.
  unfold same_relative_order. intros Ns Nt X Q H.
  assert (Xd : ~ In x (D1 ++ D2)) by now apply NoDup_remove_2 in Nt. rewrite in_app_iff in Xd.
  assert (Tx : mem x (D1 ++ x :: D2) = true) by (apply mem_in, in_or_app; right; now left).
  assert (Sx : mem x (A ++ x :: B) = true) by (apply mem_in, in_or_app; right; now left).
  assert (Sn : mem x (A ++ B) = false) by now apply mem_false.
  rewrite !filter_app in H |- *. cbn [filter] in H |- *. rewrite Tx, Sx. rewrite Sn in H.
  rewrite (filter_inserted x A B D1), (filter_inserted x A B D2) by tauto.
  destruct Q as [[-> ->]|(p & A0 & D0 & -> & ->)].
  - cbn [filter app] in H |- *. now rewrite H.
  - set (f := fun z => mem z ((D0 ++ [p]) ++ x :: D2)) in *. set (g := fun z => mem z ((A0 ++ [p]) ++ B)) in *.
    assert (Fp : f p = true) by (unfold f; apply mem_in; rewrite !in_app_iff; left; right; now left).
    assert (Gp : g p = true) by (unfold g; apply mem_in; rewrite !in_app_iff; left; right; now left).
    rewrite !filter_app in H |- *. cbn [filter] in H |- *. rewrite Fp, Gp in *. rewrite <- !app_assoc in H |- *. cbn [app] in H |- *.
    assert (N : NoDup (filter f A0 ++ p :: filter f B)).
    { pose proof (NoDup_filter f Ns) as Z. rewrite !filter_app in Z. cbn [filter] in Z. rewrite Fp, <- app_assoc in Z. exact Z. }
    destruct (split_once _ _ _ _ _ N H) as [-> ->]. reflexivity.
Qed.
Lemma previous_split c prev : forall L q, In (prev, c) (with_previous q L) -> exists d1 d2, L = d1 ++ c :: d2 /\
  ((d1 = [] /\ prev = q) \/ exists d0 y, d1 = d0 ++ [y] /\ prev = Some (c_name y)).
Proof.
  induction L as [|z L IH]; intros q H; [destruct H|]. cbn [with_previous] in H. destruct H as [H|H].
  - injection H as -> ->. exists [], L. split; [reflexivity|]. now left.
  - destruct (IH _ H) as (d1 & d2 & -> & [[-> ->]|(d0 & y & -> & ->)]).
    + exists [z], d2. split; [reflexivity|]. right. exists [], z. now split.
    + exists (z :: d0 ++ [y]), d2. split; [reflexivity|]. right. exists (z :: d0), y. now split.
Qed.
Lemma after_split p c : forall L r, put_column_after p c L = Some r -> exists a y b, L = a ++ y :: b /\ r = a ++ y :: c :: b /\ c_name y = p.
Proof.
  induction L as [|z L IH]; intros r H; [discriminate|]. cbn [put_column_after] in H. destruct (String.eqb_spec (c_name z) p) as [E|].
  - injection H as <-. exists [], z, L. now split.
  - destruct (put_column_after p c L) as [r'|]; [|discriminate]. injection H as <-. destruct (IH r' eq_refl) as (a & y & b & -> & -> & E). exists (z :: a), y, b. now split.
Qed.

(** ** A table as created *)
Section Created.
Variables (l : list ddl) (t : table).
Hypothesis Hmt : mysql_table l t.

Lemma inline_only : mysql_table [] t.
Proof.
  assert (S : forall i, In i (all_keys [] t) -> In i (all_keys l t)).
  { intros i. unfold all_keys at 1. cbn [indexes_on flat_map]. rewrite app_nil_r. intros H. unfold all_keys. apply in_or_app. now left. }
  constructor; try apply Hmt.
  - unfold all_keys. cbn [indexes_on flat_map]. rewrite app_nil_r. pose proof (mt_keys _ _ Hmt) as N. unfold all_keys in N. rewrite map_app in N.
    revert N. generalize (map i_name (t_indexes (created_table t))) as a. intros a. generalize (map i_name (indexes_on (t_name t) l)) as b. intros b.
    induction a as [|x a IH]; cbn; intros N; [constructor|]. inversion N as [|? ? Hx N']; subst. constructor; [|auto]. intros X. apply Hx. apply in_or_app. now left.
  - intros i H. now apply (mt_key _ _ Hmt), S.
  - intros i x H. apply (mt_key_columns _ _ Hmt), S, H.
  - intros i [].
Qed.

Lemma created_reached : table_reached [] t (created_table t) /\ catalogue_table (created_table t).
Proof.
  apply new_table; try reflexivity; [exact inline_only|]. unfold all_keys. cbn [indexes_on flat_map]. now rewrite app_nil_r.
Qed.

Lemma same_named_columns c cc : In c (t_columns t) -> In cc (t_columns (created_table t)) -> c_name cc = c_name c -> column_reached cc c.
Proof.
  intros C X E. pose proof (tr_columns _ _ _ (proj1 created_reached)) as F. pose proof (mt_names _ _ Hmt) as N. unfold names in N.
  clear - F C X E N. induction F as [|a b L M H F IH]; [destruct X|]. cbn [map] in N. inversion N as [|? ? Hx N']; subst.
  assert (K : forall y, In y L -> In (c_name y) (map c_name M)).
  { clear - F. induction F as [|p q L M H F IH]; intros y []; [subst; cbn; left; symmetry; apply H|right; auto]. }
  destruct C as [->|C], X as [->|X]; auto.
  - destruct Hx. rewrite <- E. now apply K.
  - destruct Hx. destruct H as [H _]. rewrite <- H, E. now apply in_map.
Qed.

Lemma created_settles : settles l t (created_table t).
Proof.
  assert (S : forall i, In i (t_indexes (created_table t)) -> In i (all_keys l t)) by (intros i H; unfold all_keys; apply in_or_app; now left).
  constructor.
  - unfold same_relative_order. now rewrite names_of_created.
  - intros c cc C X E A B. destruct (same_named_columns c cc C X E) as (_ & _ & _ & Z). congruence.
  - intros c cc C X E _ A. destruct (auto_declared l t Hmt c C A) as (i & I & (rest & R)). exists i, i, rest. split; [exact I|]. split; [exact R|].
    split; [now apply S|]. split; [reflexivity|]. apply index_matches_refl. apply (mt_key _ _ Hmt i). now apply S.
  - intros c k C U K E. rewrite names_of_created. split; [now apply in_map|].
    assert (k = unique_index (c_name c)) as -> by (apply (key_unique l t Hmt); [now apply S|now apply unique_declared|exact E]).
    apply index_matches_refl. apply (mt_key _ _ Hmt). now apply unique_declared.
  - intros k x K D. destruct D. apply in_map. now apply S.
  - intros c C X. unfold in_pk in X. apply existsb_exists in X as (k & K & X). apply andb_true_iff in X as [X1 X2]. apply mem_in in X2.
    pose proof (declared_pk l t Hmt) as D. pose proof (proj1 (pk_declared l t Hmt k (S k K)) X1) as En. destruct (primary_key t) as [i|].
    + destruct D as (Hin & Ein & _ & Hsay). apply Hsay; [exact C|]. rewrite (key_unique l t Hmt i k); auto. congruence.
    + exfalso. apply D. rewrite <- En. apply in_map. now apply S.
  - intros f cf F C E _. assert (cf = f) as ->; [|apply fk_same_refl]. cbn [created_table t_fks] in C.
    pose proof (named_self fk_constraint _ cf (mt_fks _ _ Hmt) C) as H1. pose proof (named_self fk_constraint _ f (mt_fks _ _ Hmt) F) as H2. congruence.
Qed.

Lemma first_column (k : index) i x : index_matches k i -> key_columns i = [x] -> In x (key_columns k).
Proof.
  intros (_ & _ & F & _). unfold key_columns. destruct F as [|a b L M E F]; [discriminate|]. cbn [map]. intros H. injection H as <- _. left. apply E.
Qed.

(** ** A declared key is added *)
Lemma keyed_by s s' i k : In i (all_keys l t) -> i_name k = i_name i -> i_primary k = false -> index_matches k i ->
  catalogue_table s -> settles l t s -> add_key k s = Some s' -> integrity s' = true -> catalogue_table s' /\ settles l t s'.
Proof.
  intros Hk En Np M K Se A Hint.
  unfold add_key in A. destruct (mem (i_name k) (map i_name (t_indexes s))) eqn:Em; [discriminate|]. rewrite Np in A. injection A as <-. set (s' := mkTable _ _ _ _ _) in *.
  assert (Nn : names s' = names s) by reflexivity.
  assert (Pk : forall x, in_pk s' x = in_pk s x). { intros x. unfold in_pk, s'. cbn [t_indexes]. rewrite existsb_app. cbn [existsb]. rewrite Np. cbn [andb]. now rewrite !orb_false_r. }
  split; constructor; try (apply K); try (apply Se).
  - cbn [s' t_indexes]. rewrite map_app. apply mem_false in Em. pose proof (ct_keys _ K) as N. cbn [map].
    apply NoDup_Add with (a := i_name k) (l := map i_name (t_indexes s)); [|split; [exact N|exact Em]].
    rewrite <- (app_nil_r (map i_name (t_indexes s))) at 1. apply Add_app.
  - exact Hint.
  - intros k' H. cbn [s' t_indexes] in H. apply in_app_or in H as [H|[<-|[]]]; [now apply (ct_primary_name _ K)|].
    destruct M as (_ & P & _). rewrite P, En. now apply (pk_declared l t Hmt).
  - intros c C X. rewrite Pk in X. now apply (ct_primary _ K).
  - intros c cc C X E B D. destruct (se_keeps _ _ _ Se c cc C X E B D) as (k' & j & rest & H1 & H2 & H3). exists k', j, rest. split; [|now split]. cbn [s' t_indexes]. apply in_or_app. now left.
  - intros c k' C U H E. cbn [s' t_indexes] in H. rewrite Nn. apply in_app_or in H as [H|[<-|[]]]; [now apply (se_unique _ _ _ Se)|].
    assert (Eq : i = unique_index (c_name c)) by (apply (key_unique l t Hmt); [exact Hk|now apply unique_declared|cbn; congruence]).
    rewrite Eq in M. split; [|exact M].
    unfold integrity in Hint. rewrite !andb_true_iff in Hint. destruct Hint as [[[H1 _] _] _]. rewrite forallb_forall in H1.
    assert (I : In k (t_indexes s')) by (cbn [s' t_indexes]; apply in_or_app; right; now left). specialize (H1 k I). rewrite forallb_forall in H1. rewrite <- Nn. apply mem_in, H1.
    exact (first_column k _ _ M eq_refl).
  - intros k' x H D T X. cbn [s' t_indexes] in H. apply in_app_or in H as [H|[<-|[]]]; [now apply (se_tolerated _ _ _ Se k')|]. destruct D. rewrite En. now apply in_map.
  - intros c C X. rewrite Pk in X. now apply (se_primary _ _ _ Se).
Qed.
Lemma indexed s s' i : In i (indexes_on (t_name t) l) -> catalogue_table s -> settles l t s -> add_key i s = Some s' -> integrity s' = true ->
  catalogue_table s' /\ settles l t s'.
Proof.
  intros Hi. apply (keyed_by s s' i i); [now apply separate_declared|reflexivity|exact (mt_separate _ _ Hmt i Hi)|].
  apply index_matches_refl, (mt_key _ _ Hmt). now apply separate_declared.
Qed.
Lemma indexed_inline s s' i : In i (t_indexes t) -> i_primary i = false -> catalogue_table s -> settles l t s -> add_key (recorded_index i) s = Some s' ->
  integrity s' = true -> catalogue_table s' /\ settles l t s'.
Proof.
  intros Hi Np. apply (keyed_by s s' i (recorded_index i)); [now apply inline_declared|reflexivity|exact Np|].
  apply recorded_matches. exact (mt_inline _ _ Hmt i Hi).
Qed.

(** ** A column without AUTO_INCREMENT is changed *)
Lemma filter_map {A B} (f : A -> B) (p : B -> bool) L : map f (filter (fun x => p (f x)) L) = filter p (map f L).
Proof. induction L as [|x L IH]; [reflexivity|]. cbn. destruct (p (f x)); cbn; now rewrite IH. Qed.
Lemma filter_and {A} (p q : A -> bool) L : filter p (filter q L) = filter (fun x => p x && q x) L.
Proof. induction L as [|x L IH]; [reflexivity|]. cbn. destruct (q x); cbn; rewrite ?andb_true_r, ?andb_false_r, ?IH; reflexivity. Qed.
Lemma mem_without x n a : mem x (filter (fun y => negb (String.eqb y n)) a) = mem x a && negb (String.eqb x n).
Proof.
  apply eq_true_iff_eq. rewrite andb_true_iff, !mem_in, filter_In. tauto.
Qed.
Lemma order_without n a b : same_relative_order a b -> same_relative_order (filter (fun y => negb (String.eqb y n)) a) b.
Proof.
  unfold same_relative_order. intros H. rewrite (filter_ext (fun x => mem x (filter _ a)) (fun x => mem x a && negb (String.eqb x n)) (fun x => mem_without x n a)).
  rewrite filter_and. transitivity (filter (fun x => negb (String.eqb x n)) (filter (fun x => mem x b) a)).
  - rewrite filter_and. apply filter_ext. intros x. apply andb_comm.
  - rewrite H, filter_and. apply filter_ext. intros x. apply andb_comm.
Qed.
Lemma names_without n s : names (with_columns (remove_named c_name n (t_columns s)) s) = filter (fun y => negb (String.eqb y n)) (names s).
Proof. unfold names, remove_named. cbn [with_columns t_columns]. exact (filter_map c_name (fun y => negb (String.eqb y n)) (t_columns s)). Qed.

Lemma place_split c prev r L M : In (prev, c) (with_previous None (t_columns t)) -> put_column r (pos_of prev) L = Some M ->
  exists a b d1 d2, L = a ++ b /\ M = a ++ r :: b /\ t_columns t = d1 ++ c :: d2 /\
    (map c_name a = [] /\ map c_name d1 = [] \/ exists p A0 D0, map c_name a = A0 ++ [p] /\ map c_name d1 = D0 ++ [p]).
Proof.
  intros Pc Pu. destruct (previous_split _ _ _ _ Pc) as (d1 & d2 & Ed & Qd). destruct Qd as [[-> ->]|(d0 & y & -> & ->)].
  - cbn [put_column pos_of] in Pu. injection Pu as <-. exists [], L, [], d2. split; [reflexivity|]. split; [reflexivity|]. split; [exact Ed|]. now left.
  - cbn [put_column pos_of] in Pu. destruct (after_split _ _ _ _ Pu) as (a & z & b & E1 & E2 & E3). exists (a ++ [z]), b, (d0 ++ [y]), d2.
    split; [rewrite E1, <- app_assoc; reflexivity|]. split; [rewrite E2, <- app_assoc; reflexivity|]. split; [exact Ed|].
    right. exists (c_name y), (map c_name a), (map c_name d0). rewrite !map_app. cbn [map]. rewrite E3. now split.
Qed.

Lemma column_changed s s' x c p : c_autoinc c = false ->
  (p = PosNone \/ exists c0 prev, In (prev, c0) (with_previous None (t_columns t)) /\ c_name c = c_name c0 /\ p = pos_of prev) ->
  catalogue_table s -> settles l t s -> alter_table (EffChangeColumn (t_name t) x c p) s = Some s' -> settles l t s'.
Proof.
  intros A0 Q K Se A. cbn [alter_table] in A. destruct (String.eqb_spec (c_name c) x) as [<-|]; [|discriminate]. cbn [andb] in A.
  destruct (mem (c_name c) (names s)) eqn:Em; [|discriminate]. apply mem_in in Em. set (r := kept_notnull s (recorded c)) in *.
  assert (Rn : c_name r = c_name c) by (unfold r, kept_notnull; now destruct (in_pk _ _)).
  assert (Ra : c_autoinc r = false) by (unfold r, kept_notnull; destruct (in_pk _ _); exact A0).
  assert (G : forall M, (forall z, In z M -> z = r \/ In z (t_columns s)) -> (forall z, In z (names s) -> In z (map c_name M)) ->
    same_relative_order (map c_name M) (names t) -> settles l t (with_columns M s)).
  { intros M Cs Sub Ord. constructor; try apply Se; [exact Ord| | |].
    - intros z cc C X E A1. destruct (Cs cc X) as [->|X']; [congruence|]. now apply (se_loses _ _ _ Se z cc).
    - intros z cc C X E A1. destruct (Cs cc X) as [->|X']; [congruence|]. now apply (se_keeps _ _ _ Se z cc).
    - intros z k C U Kk E. destruct (se_unique _ _ _ Se z k C U Kk E) as [H Mt]. split; [now apply Sub|exact Mt]. }
  assert (In_place : p = PosNone -> settles l t s').
  { intros ->. injection A as <-.
    assert (Nm : map c_name (map (fun y => if String.eqb (c_name y) (c_name c) then r else y) (t_columns s)) = names s).
    { rewrite map_map. unfold names. apply map_ext. intros y. destruct (String.eqb_spec (c_name y) (c_name c)) as [E|]; congruence. }
    apply G; [|rewrite Nm; auto|rewrite Nm; apply Se]. intros z Z. apply in_map_iff in Z as (y & <- & Y). destruct (String.eqb _ _); auto. }
  destruct Q as [Q|(c0 & prev & Pc & Nc & Q)]; [now apply In_place|].
  assert (A' : match put_column r p (remove_named c_name (c_name c) (t_columns s)) with Some L => Some (with_columns L s) | None => None end = Some s')
    by (rewrite Q in A |- *; destruct prev; exact A).
  rewrite Q in A'. clear A In_place. destruct (put_column r (pos_of prev) (remove_named c_name (c_name c) (t_columns s))) as [M|] eqn:Pu; [|discriminate A']. injection A' as <-.
  destruct (place_split c0 prev r _ M Pc Pu) as (a & b & d1 & d2 & Es & -> & Ed & Qs).
  assert (Nw : filter (fun y => negb (String.eqb y (c_name c))) (names s) = map c_name a ++ map c_name b).
  { rewrite <- names_without. unfold names. cbn [with_columns t_columns]. now rewrite Es, map_app. }
  assert (Nt : names t = map c_name d1 ++ c_name c :: map c_name d2) by (unfold names; now rewrite Ed, map_app, Nc).
  apply G.
  - intros z Z. assert (W : z = r \/ In z (a ++ b)) by (rewrite in_app_iff; apply in_app_or in Z as [Z|[Z|Z]]; auto).
    destruct W as [W|W]; [now left|right]. rewrite <- Es in W. unfold remove_named in W. now apply filter_In in W.
  - intros z Z. rewrite map_app. cbn [map]. rewrite Rn. destruct (String.eqb_spec z (c_name c)) as [->|Nz]; [apply in_or_app; right; now left|].
    assert (W : In z (map c_name a ++ map c_name b)). { rewrite <- Nw. apply filter_In. split; [exact Z|]. apply negb_true_iff. now apply String.eqb_neq. }
    apply in_app_or in W as [W|W]; apply in_or_app; [now left|right; now right].
  - rewrite map_app. cbn [map]. rewrite Rn, Nt. apply order_inserted; [rewrite <- Nw; apply NoDup_filter, K|rewrite <- Nt; apply Hmt| |exact Qs|].
    + rewrite <- Nw. intros W. apply filter_In in W as [_ W]. rewrite String.eqb_refl in W. discriminate.
    + rewrite <- Nw, <- Nt. apply order_without, Se.
Qed.

(** ** A column is added *)
Lemma integrity_inserted s c a b : t_columns s = a ++ b -> c_autoinc c = false -> integrity s = true -> integrity (with_columns (a ++ c :: b) s) = true.
Proof.
  intros E A. assert (Sub : forall x, mem x (names s) = true -> mem x (names (with_columns (a ++ c :: b) s)) = true).
  { intros x. unfold names. cbn [with_columns t_columns]. rewrite E, !mem_in, !map_app, !in_app_iff. cbn [map In]. tauto. }
  unfold integrity. cbn [with_columns t_columns t_indexes t_fks]. rewrite !andb_true_iff. intros [[[H1 H2] H3] H4]. rewrite E in H3, H4.
  rewrite !forallb_forall in H1, H2, H3. split; [split; [split|]|].
  - apply forallb_forall. intros i I. apply forallb_forall. intros x X. apply Sub. specialize (H1 i I). rewrite forallb_forall in H1. now apply H1.
  - apply forallb_forall. intros f F. apply forallb_forall. intros x X. apply Sub. specialize (H2 f F). rewrite forallb_forall in H2. now apply H2.
  - apply forallb_forall. intros z Z. apply in_app_or in Z as [Z|[<-|Z]]; [apply H3; apply in_or_app; now left|now rewrite A|apply H3; apply in_or_app; now right].
  - rewrite filter_app in H4 |- *. cbn [filter]. now rewrite A.
Qed.

Lemma column_added s s' c prev : In (prev, c) (with_previous None (t_columns t)) -> catalogue_table s -> settles l t s ->
  alter_table (EffAddColumn (t_name t) (set_autoinc false c) (match prev with None => PosFirst | Some p => PosAfter p end)) s = Some s' ->
  integrity s' = true -> catalogue_table s' /\ settles l t s'.
Proof.
  intros Pc K Se A Hint. cbn [alter_table] in A. destruct (mem _ (names s)) eqn:Em; [discriminate|]. apply mem_false in Em. cbn [set_autoinc c_name] in Em.
  destruct (put_column _ _ _) as [L|] eqn:Pu; [|discriminate].
  destruct (previous_split _ _ _ _ Pc) as (d1 & d2 & Ed & Qd).
  assert (Hc : In c (t_columns t)) by (rewrite Ed; apply in_or_app; right; now left).
  set (r := recorded (set_autoinc false c)) in *. assert (Rn : c_name r = c_name c) by reflexivity.
  assert (Sp : exists a b, t_columns s = a ++ b /\ L = a ++ r :: b /\
    (map c_name a = [] /\ map c_name d1 = [] \/ exists p A0 D0, map c_name a = A0 ++ [p] /\ map c_name d1 = D0 ++ [p])).
  { destruct Qd as [[-> ->]|(d0 & y & -> & ->)].
    - cbn [put_column] in Pu. injection Pu as <-. exists [], (t_columns s). split; [reflexivity|]. split; [reflexivity|]. now left.
    - cbn [put_column] in Pu. destruct (after_split _ _ _ _ Pu) as (a & z & b & E1 & E2 & E3). exists (a ++ [z]), b. rewrite <- !app_assoc. split; [exact E1|]. split; [exact E2|].
      right. exists (c_name y), (map c_name a), (map c_name d0). rewrite !map_app. cbn [map]. rewrite E3. now split. }
  destruct Sp as (a & b & Es & -> & Q). set (s1 := with_columns (a ++ r :: b) s) in *.
  assert (Ns : names s = map c_name a ++ map c_name b) by (unfold names; now rewrite Es, map_app).
  assert (N1 : names s1 = map c_name a ++ c_name c :: map c_name b) by (unfold names, s1; cbn [with_columns t_columns]; now rewrite map_app).
  assert (Nt : names t = map c_name d1 ++ c_name c :: map c_name d2) by (unfold names; now rewrite Ed, map_app).
  assert (Sub : forall x, In x (names s) -> In x (names s1)) by (intros x; rewrite Ns, N1, !in_app_iff; cbn [In]; tauto).
  assert (Cs : forall z, In z (t_columns s1) -> z = r \/ In z (t_columns s)).
  { intros z Z. cbn [s1 with_columns t_columns] in Z. rewrite Es, in_app_iff. apply in_app_or in Z as [Z|[Z|Z]]; auto. }
  assert (K1 : catalogue_table s1).
  { constructor; try apply K.
    - rewrite N1. pose proof (ct_names _ K) as N. rewrite Ns in N. apply NoDup_Add with (a := c_name c) (l := map c_name a ++ map c_name b); [apply Add_app|].
      split; [exact N|]. now rewrite <- Ns.
    - apply integrity_inserted; [exact Es|reflexivity|apply K].
    - intros z Z. destruct (Cs z Z) as [->|Z']; [exact (recorded_shape _)|now apply (ct_columns _ K)].
    - intros z Z X. destruct (Cs z Z) as [->|Z']; [|now apply (ct_primary _ K)]. exfalso. apply Em. rewrite Rn in X.
      unfold in_pk in X. cbn [s1 with_columns t_indexes] in X. apply existsb_exists in X as (k & Kk & X). apply andb_true_iff in X as [_ X]. apply mem_in in X.
      pose proof (ct_integrity _ K) as I. unfold integrity in I. rewrite !andb_true_iff in I. destruct I as [[[H _] _] _]. rewrite forallb_forall in H. specialize (H k Kk).
      rewrite forallb_forall in H. apply mem_in, H, X. }
  assert (S1 : settles l t s1).
  { constructor; try apply Se.
    - rewrite N1, Nt. apply order_inserted; [rewrite <- Ns; apply K|rewrite <- Nt; apply Hmt|now rewrite <- Ns|exact Q|]. rewrite <- Ns, <- Nt. apply Se.
    - intros x cc C X E A1. destruct (Cs cc X) as [->|X']; [discriminate A1|]. now apply (se_loses _ _ _ Se x cc).
    - intros x cc C X E A1. destruct (Cs cc X) as [->|X']; [discriminate A1|]. now apply (se_keeps _ _ _ Se x cc).
    - intros x k C U Kk E. destruct (se_unique _ _ _ Se x k C U Kk E) as [H M]. split; [now apply Sub|exact M]. }
  destruct (is_unique _) eqn:U in A; [|injection A as <-; now split].
  apply (keyed_by s1 s' (unique_index (c_name c)) (unique_index (c_name c))); auto.
  - now apply unique_declared.
  - apply index_matches_refl, (mt_key _ _ Hmt). now apply unique_declared.
Qed.

(** ** The primary key is added, a key is dropped *)
Lemma notnull_matches cc c : definition_matches cc c -> says_not_null c -> definition_matches (set_notnull (Some true) cc) c.
Proof. intros (H1 & H2 & H3 & H4) N. split; [exact H1|]. split; [exact H2|]. split; [|exact H4]. split; [intros _; exact N|reflexivity]. Qed.

Lemma primary_added s s' i : primary_key t = Some i -> i_primary i = true -> catalogue_table s -> settles l t s -> add_key (recorded_index i) s = Some s' ->
  integrity s' = true -> catalogue_table s' /\ settles l t s'.
Proof.
  intros Ep Ip K Se A Hint. pose proof (declared_pk l t Hmt) as D. rewrite Ep in D. destruct D as (Hk & En & Sh & Say).
  unfold add_key in A. set (k := recorded_index i) in *. assert (Kn : i_name k = "PRIMARY") by exact En. assert (Kp : i_primary k = true) by exact Ip.
  assert (Kc : key_columns k = key_columns i) by apply recorded_index_columns.
  destruct (mem (i_name k) (map i_name (t_indexes s))) eqn:Em; [discriminate|]. apply mem_false in Em. rewrite Kp in A. injection A as <-.
  set (h := fun c : column => if mem (c_name c) (key_columns k) then set_notnull (Some true) c else c) in *. set (s' := mkTable _ _ _ _ _) in *.
  assert (Hn : forall c, c_name (h c) = c_name c) by (intros c; unfold h; now destruct (mem _ _)).
  assert (Ha : forall c, c_autoinc (h c) = c_autoinc c) by (intros c; unfold h; now destruct (mem _ _)).
  assert (Nn : names s' = names s) by (unfold names; cbn [s' t_columns]; rewrite map_map; apply map_ext; exact Hn).
  assert (Pk : forall x, in_pk s' x = in_pk s x || mem x (key_columns k)).
  { intros x. unfold in_pk, s'. cbn [t_indexes]. rewrite existsb_app. cbn [existsb]. rewrite Kp. cbn [andb]. now rewrite orb_false_r. }
  split; constructor; try (apply K); try (apply Se).
  - rewrite Nn. apply K.
  - cbn [s' t_indexes]. rewrite map_app. cbn [map]. apply NoDup_Add with (a := i_name k) (l := map i_name (t_indexes s)); [|split; [apply K|exact Em]].
    rewrite <- (app_nil_r (map i_name (t_indexes s))) at 1. apply Add_app.
  - exact Hint.
  - intros z Z. cbn [s' t_columns] in Z. apply in_map_iff in Z as (y & <- & Y). pose proof (ct_columns _ K y Y) as C. unfold h. destruct (mem _ _); exact C.
  - intros z Z. cbn [s' t_indexes] in Z. apply in_app_or in Z as [Z|[<-|[]]]; [now apply (ct_primary_name _ K)|]. rewrite Kp, Kn. tauto.
  - intros z Z X. cbn [s' t_columns] in Z. apply in_map_iff in Z as (y & <- & Y). rewrite Hn, Pk in X. unfold h. destruct (mem (c_name y) (key_columns k)); [reflexivity|].
    rewrite orb_false_r in X. now apply (ct_primary _ K).
  - rewrite Nn. apply Se.
  - intros c cc C X E B F. cbn [s' t_columns] in X. apply in_map_iff in X as (y & <- & Y). rewrite Hn in E. rewrite Ha in B.
    destruct (se_loses _ _ _ Se c y C Y E B F) as [H1 H2]. unfold h. destruct (mem (c_name y) (key_columns k)) eqn:Mk; [|now split]. split; [|exact H2].
    apply notnull_matches; [exact H1|]. apply Say; [exact C|]. rewrite <- Kc, <- E. now apply mem_in.
  - intros c cc C X E B F. cbn [s' t_columns] in X. apply in_map_iff in X as (y & <- & Y). rewrite Hn in E. rewrite Ha in B.
    destruct (se_keeps _ _ _ Se c y C Y E B F) as (k' & j & rest & H1 & H2). exists k', j, rest. split; [|exact H2]. cbn [s' t_indexes]. apply in_or_app. now left.
  - intros c k' C U H E. cbn [s' t_indexes] in H. rewrite Nn. apply in_app_or in H as [H|[<-|[]]]; [now apply (se_unique _ _ _ Se)|]. exfalso.
    assert (Eq : i = unique_index (c_name c)) by (apply (key_unique l t Hmt); [exact Hk|now apply unique_declared|exact E]). rewrite Eq in Ip. discriminate.
  - intros k' x H D T X. cbn [s' t_indexes] in H. apply in_app_or in H as [H|[<-|[]]]; [now apply (se_tolerated _ _ _ Se k')|]. destruct D. change (i_name k) with (i_name i). now apply in_map.
  - intros c C X. rewrite Pk in X. apply orb_true_iff in X as [X|X]; [now apply (se_primary _ _ _ Se)|]. apply Say; [exact C|]. rewrite <- Kc. now apply mem_in.
Qed.

Lemma in_pk_dropped s n x : in_pk (with_indexes (remove_named i_name n (t_indexes s)) s) x = true -> in_pk s x = true.
Proof.
  unfold in_pk. cbn [with_indexes t_indexes]. rewrite !existsb_exists. intros (k & H & X). exists k. split; [|exact X]. unfold remove_named in H. now apply filter_In in H.
Qed.
Lemma key_dropped s n : (forall c, In c (t_columns t) -> c_autoinc c = false) -> settles l t s ->
  settles l t (with_indexes (remove_named i_name n (t_indexes s)) s).
Proof.
  intros Z Se. assert (D : forall k, In k (remove_named i_name n (t_indexes s)) -> In k (t_indexes s)) by (intros k H; unfold remove_named in H; now apply filter_In in H).
  constructor; try apply Se.
  - intros c cc C _ _ _ A. rewrite (Z c C) in A. discriminate.
  - intros c k C U H. apply (se_unique _ _ _ Se c k C U). now apply D.
  - intros k x H. apply (se_tolerated _ _ _ Se k x). now apply D.
  - intros c C X. apply (se_primary _ _ _ Se c C). now apply in_pk_dropped in X.
Qed.

(** ** Foreign keys *)
Lemma fk_added s f : In f (t_fks t) -> settles l t s -> settles l t (with_fks (t_fks s ++ [f]) s).
Proof.
  intros F Se. constructor; try apply Se. intros g cg G C E M. cbn [with_fks t_fks] in C. apply in_app_or in C as [C|[<-|[]]]; [now apply (se_fks _ _ _ Se)|].
  assert (f = g) as ->; [|apply fk_same_refl]. pose proof (named_self fk_constraint _ f (mt_fks _ _ Hmt) F) as H1.
  pose proof (named_self fk_constraint _ g (mt_fks _ _ Hmt) G) as H2. congruence.
Qed.
Lemma fk_dropped s n : settles l t s -> settles l t (with_fks (remove_named fk_constraint n (t_fks s)) s).
Proof.
  intros Se. constructor; try apply Se. intros g cg G C. cbn [with_fks t_fks] in C. unfold remove_named in C. apply filter_In in C as [C _].
  now apply (se_fks _ _ _ Se).
Qed.

(** ** A column is dropped *)
Lemma column_dropped s n : integrity (with_columns (remove_named c_name n (t_columns s)) s) = true -> settles l t s ->
  settles l t (with_columns (remove_named c_name n (t_columns s)) s).
Proof.
  intros I Se. assert (D : forall c, In c (remove_named c_name n (t_columns s)) -> In c (t_columns s)) by (intros c C; unfold remove_named in C; now apply filter_In in C).
  constructor; try apply Se.
  - rewrite names_without. now apply order_without, Se.
  - intros c cc C X. apply (se_loses _ _ _ Se c cc C). now apply D.
  - intros c cc C X. apply (se_keeps _ _ _ Se c cc C). now apply D.
  - intros c k C U K E. destruct (se_unique _ _ _ Se c k C U K E) as [_ M]. split; [|exact M].
    unfold integrity in I. rewrite !andb_true_iff in I. destruct I as [[[H _] _] _]. rewrite forallb_forall in H. specialize (H k K).
    rewrite forallb_forall in H. apply mem_in, H. exact (first_column k _ _ M eq_refl).
Qed.
End Created.

Lemma fks_catalogue s L : catalogue_table s -> NoDup (map fk_constraint L) -> integrity (with_fks L s) = true -> catalogue_table (with_fks L s).
Proof. intros K N I. constructor; try apply K; [exact N|exact I]. Qed.
Lemma key_dropped_catalogue s n : catalogue_table s -> integrity (with_indexes (remove_named i_name n (t_indexes s)) s) = true ->
  catalogue_table (with_indexes (remove_named i_name n (t_indexes s)) s).
Proof.
  intros K I. constructor; try apply K; [unfold remove_named; apply nodup_map_filter, K|exact I| |].
  - intros k H. apply (ct_primary_name _ K). cbn [with_indexes t_indexes] in H. unfold remove_named in H. now apply filter_In in H.
  - intros c C X. apply (ct_primary _ K); [exact C|]. now apply in_pk_dropped in X.
Qed.
Lemma column_changed_catalogue s s' n x c p : catalogue_table s -> alter_table (EffChangeColumn n x c p) s = Some s' -> integrity s' = true -> catalogue_table s'.
Proof.
  intros K A I. cbn [alter_table] in A. destruct (String.eqb_spec (c_name c) x) as [<-|]; [|discriminate]. cbn [andb] in A.
  destruct (mem (c_name c) (names s)); [|discriminate]. set (r := kept_notnull s (recorded c)) in *.
  assert (Rn : c_name r = c_name c) by (unfold r, kept_notnull; now destruct (in_pk _ _)).
  assert (G : forall M, s' = with_columns M s -> NoDup (map c_name M) -> (forall z, In z M -> z = r \/ In z (t_columns s)) -> catalogue_table s').
  { intros M -> N Cs. constructor; try apply K; [exact N|exact I| |].
    - intros z Z. destruct (Cs z Z) as [->|Z']; [|now apply (ct_columns _ K)]. unfold r, kept_notnull. destruct (in_pk _ _); exact (recorded_shape c).
    - intros z Z X. destruct (Cs z Z) as [->|Z']; [|now apply (ct_primary _ K)]. change (in_pk s (c_name r) = true) in X. rewrite Rn in X.
      unfold r, kept_notnull. change (c_name (recorded c)) with (c_name c). rewrite X. reflexivity. }
  assert (P : forall q, put_column r q (remove_named c_name (c_name c) (t_columns s)) = None \/
    exists M, put_column r q (remove_named c_name (c_name c) (t_columns s)) = Some M /\ NoDup (map c_name M) /\ (forall z, In z M -> z = r \/ In z (t_columns s))).
  { clear A. intros q. destruct (put_column r q (remove_named c_name (c_name c) (t_columns s))) as [M|] eqn:Pu; [right|left; reflexivity]. exists M. split; [reflexivity|].
    apply put_column_split in Pu as (a & b & Es & ->). split.
    - rewrite map_app. cbn [map]. rewrite Rn. apply NoDup_Add with (a := c_name c) (l := map c_name a ++ map c_name b); [apply Add_app|].
      rewrite <- map_app, <- Es. split; [unfold remove_named; apply nodup_map_filter, K|].
      intros H. apply in_map_iff in H as (z & E & H). unfold remove_named in H. apply filter_In in H as [_ H]. rewrite E, String.eqb_refl in H. discriminate.
    - intros z Z. assert (W : z = r \/ In z (a ++ b)) by (rewrite in_app_iff; apply in_app_or in Z as [Z|[Z|Z]]; auto).
      destruct W as [W|W]; [now left|right]. rewrite <- Es in W. unfold remove_named in W. now apply filter_In in W. }
  destruct p as [| |y].
  - injection A as <-. eapply G; [reflexivity| |].
    + rewrite map_map. erewrite map_ext; [apply (ct_names _ K)|]. intros y. cbn. destruct (String.eqb_spec (c_name y) (c_name c)) as [E|]; congruence.
    + intros z Z. apply in_map_iff in Z as (y & <- & Y). destruct (String.eqb _ _); auto.
  - destruct (P PosFirst) as [E|(M & E & N & Cs)]; rewrite E in A; [discriminate|]. injection A as <-. now apply (G M).
  - destruct (P (PosAfter y)) as [E|(M & E & N & Cs)]; rewrite E in A; [discriminate|]. injection A as <-. now apply (G M).
Qed.
Lemma column_dropped_catalogue s n : catalogue_table s -> integrity (with_columns (remove_named c_name n (t_columns s)) s) = true ->
  catalogue_table (with_columns (remove_named c_name n (t_columns s)) s).
Proof.
  intros K I. assert (D : forall c, In c (remove_named c_name n (t_columns s)) -> In c (t_columns s)) by (intros c C; unfold remove_named in C; now apply filter_In in C).
  constructor; try apply K.
  - rewrite names_without. apply NoDup_filter, K.
  - exact I.
  - intros c C. apply (ct_columns _ K). now apply D.
  - intros c C X. apply (ct_primary _ K); [now apply D|exact X].
Qed.

(** ** One statement *)
Section Run.
Variable l : list ddl.
Hypothesis Hms : mysql_schema l.

(** What is known of a planned statement. *)
Definition planned (e : effect) : Prop :=
  may_stop_after l e /\
  match e with EffVerbatim d => In d l | EffCreateTrigger t => In (tr_name t) (map tr_name (triggers_in l))
  | EffAddForeignKey n f => forall t, In t (tables_in l) -> t_name t = n -> In f (t_fks t)
  | EffAddColumn n c p => exists t c0 prev, In t (tables_in l) /\ t_name t = n /\ In (prev, c0) (with_previous None (t_columns t)) /\
      c = set_autoinc false c0 /\ p = match prev with None => PosFirst | Some y => PosAfter y end
  | EffChangeColumn n x c p => p = PosNone \/ forall t, In t (tables_in l) -> t_name t = n ->
      exists c0 prev, In (prev, c0) (with_previous None (t_columns t)) /\ c_name c = c_name c0 /\ p = pos_of prev
  | EffAddUniqueKey n x => exists t c0, In t (tables_in l) /\ t_name t = n /\ In c0 (t_columns t) /\ is_unique (c_key c0) = true /\ x = c_name c0
  | EffAddPrimaryKey n i => exists t, In t (tables_in l) /\ t_name t = n /\ primary_key t = Some i /\ i_primary i = true
  | EffAddIndex n i => exists t, In t (tables_in l) /\ t_name t = n /\ In i (t_indexes t) /\ i_primary i = false | _ => True end.

Definition adds_no_primary (e : effect) : bool := match e with EffAddPrimaryKey _ _ => false | _ => true end.
Definition adds_no_index (e : effect) : bool := match e with EffAddIndex _ _ => false | _ => true end.
Lemma in_removed {A} (f : A -> string) n L x : In x (remove_named f n L) -> In x L.
Proof. unfold remove_named. intros H. now apply filter_In in H as [H _]. Qed.
Lemma nodup_removed {A} (f : A -> string) n (L : list A) : NoDup (map f L) -> NoDup (map f (remove_named f n L)).
Proof. intros N. unfold remove_named. now apply nodup_map_filter. Qed.
Lemma nodup_end {A} (f : A -> string) L x : NoDup (map f L) -> ~ In (f x) (map f L) -> NoDup (map f (L ++ [x])).
Proof.
  intros N X. rewrite map_app. cbn [map]. apply NoDup_Add with (a := f x) (l := map f L); [|now split].
  rewrite <- (app_nil_r (map f L)) at 1. apply Add_app.
Qed.
Lemma not_removed {A} (f : A -> string) n (L : list A) : ~ In n (map f (remove_named f n L)).
Proof.
  intros H. apply in_map_iff in H as (x & E & H). unfold remove_named in H. apply filter_In in H as [_ H]. rewrite E, String.eqb_refl in H. discriminate.
Qed.

Lemma run_keeps e a b : planned e -> run e a = Some b -> catalogue_ok a -> convertible l a -> catalogue_ok b /\ convertible l b.
Proof.
  intros [W P] R K [C1 C2].
  assert (Altered : forall n s s', table_named n (cat_tables a) = Some s -> t_name s' = n -> catalogue_table s' ->
    (forall t, In t (tables_in l) -> t_name t = n -> settles l t s') ->
    b = mkCatalogue (replace_table n s' (cat_tables a)) (cat_views a) (cat_triggers a) -> catalogue_ok b /\ convertible l b).
  { intros n s s' T Sn Kt' Se' ->.
    assert (M : forall z, In z (replace_table n s' (cat_tables a)) -> z = s' \/ In z (cat_tables a)).
    { intros z Z. unfold replace_table in Z. apply in_map_iff in Z as (y & E & Y). destruct (String.eqb _ _); [left|right]; congruence. }
    split; constructor; cbn [cat_tables cat_views cat_triggers]; try apply K.
    - rewrite (replace_table_names n s' _ Sn). apply K.
    - intros z Z. destruct (M z Z) as [->|Z']; [exact Kt'|now apply (co_table _ K)].
    - intros u z U Z E. destruct (M z Z) as [->|Z']; [|now apply C1]. apply Se'; [exact U|congruence].
    - exact C2. }
  assert (Index : forall n i, (exists x, In (CreateIndex x n i) l \/ In (AddIndex x n i) l) -> forall s s', table_named n (cat_tables a) = Some s -> add_key i s = Some s' ->
    integrity s' = true -> b = mkCatalogue (replace_table n s' (cat_tables a)) (cat_views a) (cat_triggers a) -> catalogue_ok b /\ convertible l b).
  { intros n i (x & D) s s' T A I Eb. pose proof T as T0. apply named_some in T as [T Tn].
    assert (On : In n (created l)).
    { pose proof (ms_well_formed _ Hms) as Wf. unfold well_formed in Wf. destruct D as [D|D]; pose proof (well_formed_on l [] Wf _ D) as [[]|H]; exact H. }
    unfold created in On. apply in_map_iff in On as (t & Et & Ht). pose proof (ms_tables _ Hms t Ht) as Hmt.
    assert (Hi : In i (indexes_on (t_name t) l)).
    { unfold indexes_on. apply in_flat_map. destruct D as [D|D]; eexists; (split; [exact D|]); cbn; rewrite Et, String.eqb_refl; now left. }
    pose proof (co_table _ K s T) as Kt. pose proof (C1 t s Ht T (eq_trans Tn (eq_sym Et))) as Se.
    destruct (indexed l t Hmt s s' i Hi Kt Se A I) as [Kt' Se'].
    apply (Altered n s s'); auto; [rewrite (add_key_name _ _ _ A); exact Tn|].
    intros u U E. assert (u = t) as ->; [|exact Se']. pose proof (ms_created _ Hms) as Nc. unfold created in Nc.
    pose proof (named_self t_name _ u Nc U) as H1. pose proof (named_self t_name _ t Nc Ht) as H2. congruence. }
  destruct e as [d|n|n|n d|n d|p n|n|tr|tr|n c p|n o c p|n c|n y| | | | | | | | | | | | |n| |n i|n i|n i| |n f|n f]; cbn [may_stop_after] in W; cbn [run eff_table] in R;
    try (cbn [alter_table] in R; destruct (table_named _ (cat_tables a)); discriminate R); try discriminate R.
  - destruct d as [x t|x n i|x n i|x n f|x n p|x n p|v|tr]; cbn [run eff_table ddl_table] in R.
    + destruct (mem _ _) eqn:Em; [discriminate|]. apply mem_false in Em. destruct (integrity _) eqn:I; [|discriminate]. injection R as <-.
      assert (Ht : In t (tables_in l)) by (unfold tables_in; apply in_flat_map; exists (CreateTable x t); split; [exact P|now left]).
      pose proof (ms_tables _ Hms t Ht) as Hmt. split; constructor; cbn [cat_tables cat_views cat_triggers]; try apply K.
      * apply nodup_end; [apply K|exact Em].
      * intros s S. apply in_app_or in S as [S|[<-|[]]]; [now apply (co_table _ K)|exact (proj2 (created_reached l t Hmt))].
      * intros u s U S E. apply in_app_or in S as [S|[<-|[]]]; [now apply C1|]. change (t_name (created_table t)) with (t_name t) in E.
        assert (u = t) as ->; [|exact (created_settles l t Hmt)]. pose proof (ms_created _ Hms) as Nc. unfold created in Nc.
        pose proof (named_self t_name _ u Nc U) as H1. pose proof (named_self t_name _ t Nc Ht) as H2. congruence.
      * exact C2.
    + destruct (table_named n (cat_tables a)) as [s|] eqn:T; [|discriminate]. cbn [alter_table] in R. destruct (add_key i s) as [s'|] eqn:A; [|discriminate].
      destruct (integrity s') eqn:I; [|discriminate]. injection R as <-. apply (Index n i (ex_intro _ x (or_introl P)) s s' T A I eq_refl).
    + destruct (table_named n (cat_tables a)) as [s|] eqn:T; [|discriminate]. cbn [alter_table] in R. destruct (add_key i s) as [s'|] eqn:A; [|discriminate].
      destruct (integrity s') eqn:I; [|discriminate]. injection R as <-. apply (Index n i (ex_intro _ x (or_intror P)) s s' T A I eq_refl).
    + destruct (ms_statements _ Hms _ P).
    + destruct (ms_statements _ Hms _ P).
    + destruct (ms_statements _ Hms _ P).
    + destruct (mem _ _) eqn:Em; [discriminate|]. apply mem_false in Em. injection R as <-. split; [|now split]. constructor; cbn [cat_tables cat_views cat_triggers]; try apply K.
      apply nodup_end; [apply K|exact Em].
    + discriminate.
  - destruct (mem _ _); [|discriminate]. injection R as <-. split; constructor; cbn [cat_tables cat_views cat_triggers]; try apply K.
    + apply nodup_removed, K.
    + intros s S. apply (co_table _ K). exact (in_removed _ _ _ _ S).
    + intros t s T S. apply C1; [exact T|exact (in_removed _ _ _ _ S)].
    + exact C2.
  - destruct (mem _ _); [|discriminate]. injection R as <-. split; [|now split]. constructor; cbn [cat_tables cat_views cat_triggers]; try apply K. apply nodup_removed, K.
  - injection R as <-. split; [|now split]. constructor; cbn [cat_tables cat_views cat_triggers]; try apply K. apply (nodup_end vw_name); [apply nodup_removed, K|apply not_removed].
  - destruct (mem _ _); [|discriminate]. injection R as <-. split; constructor; cbn [cat_tables cat_views cat_triggers]; try apply K; [apply nodup_removed, K|exact C1|].
    intros k H. apply C2. apply in_map_iff in H as (x & <- & H). apply in_map. exact (in_removed _ _ _ _ H).
  - destruct (mem _ _) eqn:Em; [discriminate|]. apply mem_false in Em. injection R as <-. split; constructor; cbn [cat_tables cat_views cat_triggers]; try apply K; [now apply nodup_end; [apply K|]|exact C1|].
    intros k H. rewrite map_app in H. apply in_app_or in H as [H|[<-|[]]]; [now apply C2|exact P].
  - destruct (table_named n (cat_tables a)) as [s|] eqn:T; [|discriminate]. destruct (alter_table _ s) as [s'|] eqn:A; [|discriminate].
    destruct (integrity s') eqn:I; [|discriminate]. injection R as <-. pose proof T as T0. apply named_some in T0 as [T0 Tn].
    destruct P as (t & c0 & prev & Ht & Et & Hp & -> & ->). pose proof (ms_tables _ Hms t Ht) as Hmt.
    pose proof A as A'. rewrite <- Et in A'.
    destruct (column_added l t Hmt s s' c0 prev Hp (co_table _ K s T0) (C1 t s Ht T0 (eq_trans Tn (eq_sym Et))) A' I) as [Kt' Se'].
    apply (Altered n s s'); auto.
    + rewrite <- Tn. eapply alter_name; exact A.
    + intros u U E. assert (u = t) as ->; [|exact Se']. pose proof (ms_created _ Hms) as Nc. unfold created in Nc.
      pose proof (named_self t_name _ u Nc U) as H1. pose proof (named_self t_name _ t Nc Ht) as H2. congruence.
  - destruct (table_named n (cat_tables a)) as [s|] eqn:T; [|discriminate]. destruct (alter_table _ s) as [s'|] eqn:A; [|discriminate].
    destruct (integrity s') eqn:I; [|discriminate]. injection R as <-. pose proof T as T0. apply named_some in T0 as [T0 Tn].
    apply (Altered n s s'); auto.
    + rewrite <- Tn. eapply alter_name; exact A.
    + exact (column_changed_catalogue s s' n o c p (co_table _ K s T0) A I).
    + intros t Ht Et. rewrite <- Et in A. eapply (column_changed l t (ms_tables _ Hms t Ht) s s' o c p W); [|exact (co_table _ K s T0)| |exact A].
      * destruct P as [P|P]; [now left|right; now apply P].
      * apply C1; congruence.
  - destruct (table_named n (cat_tables a)) as [s|] eqn:T; [|discriminate]. cbn [alter_table] in R. destruct (mem c (names s)); [|discriminate].
    destruct (integrity _) eqn:I in R; [|discriminate]. injection R as <-. pose proof T as T0. apply named_some in T0 as [T0 Tn].
    apply (Altered n s (with_columns (remove_named c_name c (t_columns s)) s)); [exact T|exact Tn|apply column_dropped_catalogue; [now apply (co_table _ K)|exact I]| |reflexivity].
    intros t Ht E. apply column_dropped; [exact I|]. apply C1; congruence.
  - destruct (table_named n (cat_tables a)) as [s|] eqn:T; [|discriminate]. cbn [alter_table] in R. destruct (add_key (unique_index y) s) as [s'|] eqn:A; [|discriminate].
    destruct (integrity s') eqn:I; [|discriminate]. injection R as <-. pose proof T as T0. apply named_some in T0 as [T0 Tn].
    destruct P as (t & c0 & Ht & Et & Hc & Hu & ->). pose proof (ms_tables _ Hms t Ht) as Hmt. pose proof (unique_declared l t c0 Hc Hu) as Hk.
    destruct (keyed_by l t Hmt s s' _ (unique_index (c_name c0)) Hk eq_refl eq_refl (index_matches_refl _ (proj1 (mt_key _ _ Hmt _ Hk))) (co_table _ K s T0)
      (C1 t s Ht T0 (eq_trans Tn (eq_sym Et))) A I) as [Kt' Se'].
    apply (Altered n s s'); auto.
    + rewrite (add_key_name _ _ _ A); exact Tn.
    + intros u U E. assert (u = t) as ->; [|exact Se']. pose proof (ms_created _ Hms) as Nc. unfold created in Nc.
      pose proof (named_self t_name _ u Nc U) as H1. pose proof (named_self t_name _ t Nc Ht) as H2. congruence.
  - destruct (table_named n (cat_tables a)) as [s|] eqn:T; [|discriminate]. cbn [alter_table] in R. unfold drop_key in R. destruct (mem _ (map i_name _)); [|discriminate].
    destruct (integrity _) eqn:I in R; [|discriminate]. injection R as <-. pose proof T as T0. apply named_some in T0 as [T0 Tn].
    apply (Altered n s (with_indexes (remove_named i_name "PRIMARY" (t_indexes s)) s)); [exact T|exact Tn|apply key_dropped_catalogue; [now apply (co_table _ K)|exact I]| |reflexivity].
    intros t Ht E. apply key_dropped; [intros z Hz; exact (W t z Ht E Hz)|]. apply C1; congruence.
  - destruct (table_named n (cat_tables a)) as [s|] eqn:T; [|discriminate]. cbn [alter_table] in R. destruct (add_key (recorded_index i) s) as [s'|] eqn:A; [|discriminate].
    destruct (integrity s') eqn:I; [|discriminate]. injection R as <-. pose proof T as T0. apply named_some in T0 as [T0 Tn].
    destruct P as (t & Ht & Et & Hi & Np). pose proof (ms_tables _ Hms t Ht) as Hmt.
    destruct (primary_added l t Hmt s s' i Hi Np (co_table _ K s T0) (C1 t s Ht T0 (eq_trans Tn (eq_sym Et))) A I) as [Kt' Se'].
    apply (Altered n s s'); auto; [rewrite (add_key_name _ _ _ A); exact Tn|].
    intros u U E. assert (u = t) as ->; [|exact Se']. pose proof (ms_created _ Hms) as Nc. unfold created in Nc.
    pose proof (named_self t_name _ u Nc U) as H1. pose proof (named_self t_name _ t Nc Ht) as H2. congruence.
  - destruct (table_named n (cat_tables a)) as [s|] eqn:T; [|discriminate]. cbn [alter_table] in R. destruct (add_key _ s) as [s'|] eqn:A; [|discriminate].
    destruct (integrity s') eqn:I; [|discriminate]. injection R as <-. pose proof T as T0. apply named_some in T0 as [T0 Tn].
    destruct P as (t & Ht & Et & Hi & Np). pose proof (ms_tables _ Hms t Ht) as Hmt.
    destruct (indexed_inline l t Hmt s s' i Hi Np (co_table _ K s T0) (C1 t s Ht T0 (eq_trans Tn (eq_sym Et))) A I) as [Kt' Se'].
    apply (Altered n s s'); auto; [rewrite (add_key_name _ _ _ A); exact Tn|].
    intros u U E. assert (u = t) as ->; [|exact Se']. pose proof (ms_created _ Hms) as Nc. unfold created in Nc.
    pose proof (named_self t_name _ u Nc U) as H1. pose proof (named_self t_name _ t Nc Ht) as H2. congruence.
  - destruct (table_named n (cat_tables a)) as [s|] eqn:T; [|discriminate]. cbn [alter_table] in R. unfold drop_key in R. destruct (mem _ (map i_name _)); [|discriminate].
    destruct (integrity _) eqn:I in R; [|discriminate]. injection R as <-. pose proof T as T0. apply named_some in T0 as [T0 Tn].
    apply (Altered n s (with_indexes (remove_named i_name i (t_indexes s)) s)); [exact T|exact Tn|apply key_dropped_catalogue; [now apply (co_table _ K)|exact I]| |reflexivity].
    intros t Ht E. apply key_dropped; [intros z Hz; exact (W t z Ht E Hz)|]. apply C1; congruence.
  - destruct (table_named n (cat_tables a)) as [s|] eqn:T; [|discriminate]. cbn [alter_table] in R. destruct (mem f _); [|discriminate].
    destruct (integrity _) eqn:I in R; [|discriminate]. injection R as <-. pose proof T as T0. apply named_some in T0 as [T0 Tn].
    pose proof (co_table _ K s T0) as Kt. apply (Altered n s (with_fks (remove_named fk_constraint f (t_fks s)) s)); [exact T|exact Tn|apply fks_catalogue; [exact Kt|apply nodup_removed, Kt|exact I]| |reflexivity].
    intros t Ht E. apply fk_dropped. apply C1; congruence.
  - destruct (table_named n (cat_tables a)) as [s|] eqn:T; [|discriminate]. cbn [alter_table] in R. destruct (mem (fk_constraint f) _) eqn:Em; [discriminate|].
    apply mem_false in Em. destruct (integrity _) eqn:I in R; [|discriminate]. injection R as <-. pose proof T as T0. apply named_some in T0 as [T0 Tn].
    pose proof (co_table _ K s T0) as Kt. apply (Altered n s (with_fks (t_fks s ++ [f]) s)); [exact T|exact Tn|apply fks_catalogue; [exact Kt|apply nodup_end; [apply Kt|exact Em]|exact I]| |reflexivity].
    intros t Ht E. apply fk_added; [now apply (ms_tables _ Hms)|now apply P|]. apply C1; congruence.
Qed.

Lemma run_all_keeps out : forall a b, (forall s, In s out -> planned (s_eff s)) -> run_all out a = Some b -> catalogue_ok a -> convertible l a -> catalogue_ok b /\ convertible l b.
Proof.
  induction out as [|s out IH]; intros a b P R K C; cbn [run_all] in R; [injection R as <-; now split|].
  destruct (run (s_eff s) a) as [c|] eqn:E; [|discriminate]. destruct (run_keeps _ _ _ (P s (or_introl eq_refl)) E K C) as [K' C'].
  exact (IH c b (fun z Z => P z (or_intror Z)) R K' C').
Qed.

(** What a statement of the column section is. *)
Lemma column_section ct t s : forall L q o, ddls_columns Mysql ct t q L = Ok o -> In s o -> exists prev c0, In (prev, c0) (with_previous q L) /\
  match s_eff s with
  | EffChangeColumn _ _ c p => c_name c = c_name c0 /\ (p = PosNone \/ p = pos_of prev)
  | EffAddUniqueKey _ x => is_unique (c_key c0) = true /\ x = c_name c0
  | _ => True
  end.
Proof.
  induction L as [|c L IH]; intros q o H S; cbn [ddls_columns] in H; [injection H as <-; destruct S|]. bind_inv H. bind_inv H. injection H as <-.
  apply in_app_or in S as [S|S]; [|destruct (IH _ _ eq_refl S) as (prev & c0 & X & Y) || destruct (IH _ _ E0 S) as (prev & c0 & X & Y); exists prev, c0; split; [now right|exact Y]].
  exists q, c. split; [now left|]. unfold ddls_column in E. destruct (find_column _ _) as [cc|].
  - set (dc := if c_autoinc cc then c else set_autoinc false c) in *. assert (Dn : c_name dc = c_name c) by (unfold dc; now destruct (c_autoinc cc)).
    assert (Dk : c_key dc = c_key c) by (unfold dc; now destruct (c_autoinc cc)).
    unfold ddls_column_mysql in E. bind_inv E. injection E as <-. apply in_app_or in S as [S|S].
    + destruct (_ || _) in E1; [|injection E1 as <-; destruct S]. bind_inv E1. injection E1 as <-. destruct S as [<-|[]]. cbn [s_eff]. split; [exact Dn|].
      destruct (change_order _ _ _ _); auto.
    + rewrite Dk in S. destruct (is_unique (c_key c)); cbn [andb] in S; [|destruct S]. destruct (_ && _) in S; [|destruct S]. destruct S as [<-|[]]. cbn [s_eff]. now split.
  - unfold ddls_new_column in E. bind_inv E. injection E as <-. destruct S as [<-|[]]. exact I.
Qed.

Definition changes_in_place (e : effect) : bool := match e with EffChangeColumn _ _ _ PosNone => true | _ => false end.
Definition neither_changes_nor_uniques (e : effect) : bool := match e with EffChangeColumn _ _ _ _ | EffAddUniqueKey _ _ => false | _ => true end.

Lemma plan_planned a out : catalogue_ok a -> plan Mysql l (dump a) = Ok out -> forall s, In s out -> may_stop_after l (s_eff s) -> planned (s_eff s).
Proof.
  intros K P s S W. split; [exact W|]. pose proof (ms_created _ Hms) as N.
  assert (N' : NoDup (created (dump a))) by (rewrite dump_created; apply K).
  destruct (s_eff s) as [d| | | | | | |tr| |n c p|n x c p| |n x| | | | | | | | | | | | | | |n i|n i| | | |n f] eqn:E; try exact I.
  - pose proof (as_written_exact Mysql l (dump a) out N P N') as C.
    assert (H : In d (effects executed_as_written out)) by (unfold effects; apply in_flat_map; exists s; split; [exact S|rewrite E; now left]).
    destruct (contrib_in _ _ _ C d H) as (x & o & X & Q & Y). assert (Hx : o = [] \/ o = [x]).
    { destruct x; cbn [as_written] in Q; repeat match type of Q with context [match ?z with Some _ => _ | None => _ end] => destruct z | context [if ?z then _ else _] => destruct z end;
        try (destruct Q as [[_ Q]|[_ Q]]); auto. }
    destruct Hx as [-> | ->]; [destruct Y|]. destruct Y as [<-|[]]. exact X.
  - pose proof (trigger_ops_exact Mysql l (dump a) out N P) as C.
    assert (H : In (TriggerCreate tr) (effects trigger_ops out)) by (unfold effects; apply in_flat_map; exists s; split; [exact S|rewrite E; now left]).
    destruct (contrib_in _ _ _ C _ H) as (x & o & X & Q & Y). cbn [desired_trigger] in Q. destruct (named tr_name (tr_name x) (triggers_in (dump a))).
    + destruct Q as [[_ ->]|[_ ->]]; [destruct Y|]. destruct Y as [Y|[Y|[]]]; [discriminate|]. injection Y as <-. now apply in_map.
    + subst o. destruct Y as [Y|[]]. injection Y as <-. now apply in_map.
  - assert (Part : In s (table_part n out)) by (unfold table_part; apply filter_In; split; [exact S|rewrite E; cbn; apply String.eqb_refl]).
    destruct (in_dec string_dec n (created l)) as [Id|Id], (in_dec string_dec n (created (dump a))) as [Ic|Ic].
    + rewrite dump_created in Ic. apply in_map_iff in Ic as (ct & Ec & Ic). unfold created in Id. apply in_map_iff in Id as (t & Et & Ht).
      pose proof (added_columns_exact Mysql l (dump a) out N N' P t (numbered_table ct) Ht (in_dump_schema a ct Ic) (eq_trans Ec (eq_sym Et))) as C.
      assert (H : In (c, p) (effects (added_columns (t_name t)) out)).
      { unfold effects. apply in_flat_map. exists s. split; [exact S|]. rewrite E, Et. cbn. rewrite String.eqb_refl. now left. }
      destruct (contrib_in _ _ _ C _ H) as ((prev & c0) & o & X & Q & Y). cbn [desired_column_add] in Q.
      destruct Q as [[_ ->]|[(cc & b & (Z & _) & _)|(_ & _ & ->)]]; [|discriminate Z|destruct Y].
      destruct Y as [Y|[]]. injection Y as <- <-. exists t, c0, prev. repeat (split; [assumption || reflexivity|]). now destruct prev.
    + rewrite (new_part Mysql l (dump a) out N N' P n Id Ic) in Part. apply in_map_iff in Part as (d & <- & _). discriminate E.
    + rewrite (obsolete_part Mysql l (dump a) out N N' P n Ic Id) in Part. destruct Part as [<-|[]]. discriminate E.
    + rewrite (unknown_part Mysql l (dump a) out N N' P n Ic Id) in Part. destruct Part.
  - assert (Part : In s (table_part n out)) by (unfold table_part; apply filter_In; split; [exact S|rewrite E; cbn; apply String.eqb_refl]).
    destruct (in_dec string_dec n (created l)) as [Id|Id], (in_dec string_dec n (created (dump a))) as [Ic|Ic].
    + rewrite dump_created in Ic. apply in_map_iff in Ic as (ct & Ec & Ic). unfold created in Id. apply in_map_iff in Id as (t & Et & Ht).
      destruct (kept_sections Mysql l (dump a) out N N' P t (numbered_table ct) Ht (in_dump_schema a ct Ic) (eq_trans Ec (eq_sym Et)))
        as (cols & rem & pk & idx & ainc & fks & cix & H1 & H2 & H3 & H4 & H5 & H6 & H7 & Hp).
      rewrite Et in Hp. rewrite Hp in Part. rewrite !in_app_iff in Part.
      assert (No : forall k (o : list stmt), Forall (fun s => k (s_eff s) = true) o -> In s o -> k (s_eff s) = true).
      { intros k o F Y. rewrite Forall_forall in F. exact (F s Y). }
      assert (Place : forall x c p (o : list stmt) f (LL : list column), s_eff s = EffChangeColumn n x c p -> (forall z w, f z = Ok w -> Forall (fun s => changes_in_place (s_eff s) = true) w) ->
        concat_map f LL = Ok o -> In s o -> p = PosNone).
      { intros x0 c0 p0 o f LL Es F Co Y. pose proof (No changes_in_place o (all_concat_map changes_in_place f LL o (fun z w _ => F z w) Co) Y) as B. rewrite Es in B. now destruct p0. }
      assert (Rest : In s pk \/ In s idx \/ In s fks \/ In s (flat_map (standalone Mysql (numbered_table ct)) (statements_on n l)) \/
        In s (cleanup_fks Mysql (numbered_table ct) (full_table l t)) \/ In s cix \/ In s (cleanup_columns Mysql (numbered_table ct) (full_table l t)) \/
        In s (cleanup_policies Mysql (numbered_table ct) (full_table l t)) -> neither_changes_nor_uniques (s_eff s) = true).
      { intros [Y|[Y|[Y|[Y|[Y|[Y|[Y|Y]]]]]]].
        - pose proof (No _ _ (kind_primary_key _ _ _ _ H3) Y) as B. now destruct (s_eff s).
        - pose proof (No k_index idx (all_concat_map k_index _ _ _ (fun x o _ Hx => kind_ix _ _ _ x o Hx) H4) Y) as B. now destruct (s_eff s).
        - pose proof (No k_fk fks (all_concat_map k_fk _ _ _ (fun x o _ Hx => kind_fk _ _ _ x o Hx) H6) Y) as B. now destruct (s_eff s).
        - pose proof (No _ _ (kind_standalone _ _ _) Y) as B. now destruct (s_eff s).
        - pose proof (No _ _ (kind_cleanup_fks _ _ _) Y) as B. now destruct (s_eff s).
        - pose proof (No _ _ (kind_cleanup_indexes _ _ _ _ H7) Y) as B. now destruct (s_eff s).
        - apply in_flat_map in Y as (z & _ & Y). destruct (contains_string _ _) in Y; [destruct Y|]. destruct Y as [<-|[]]. reflexivity.
        - pose proof (No _ _ (kind_cleanup_policies _ _ _) Y) as B. now destruct (s_eff s). }
      destruct Part as [Y|[Y|[Y|[Y|[Y|Y]]]]].
      * destruct (column_section _ _ s _ _ _ H1 Y) as (prev & c0 & X & Z). rewrite E in Z. destruct Z as [Z1 [Z2|Z2]]; [now left|right].
        intros u U Eu. assert (u = t) as ->; [|exists c0, prev; now repeat split]. unfold created in N.
        pose proof (named_self t_name _ u N U) as Q1. pose proof (named_self t_name _ t N Ht) as Q2. congruence.
      * left. eapply Place; [exact E| |exact H2|exact Y]. intros z w Hz. cbv beta zeta in Hz. destruct (_ && _) in Hz; [|injection Hz as <-; constructor]. bind_inv Hz. injection Hz as <-. repeat constructor.
      * exfalso. assert (B := Rest (or_introl Y)). rewrite E in B. discriminate.
      * exfalso. assert (B := Rest (or_intror (or_introl Y))). rewrite E in B. discriminate.
      * left. eapply Place; [exact E| |exact H5|exact Y]. intros z w Hz. cbv beta zeta in Hz. destruct (_ && _) in Hz; [|injection Hz as <-; constructor]. bind_inv Hz. injection Hz as <-. repeat constructor.
      * exfalso. assert (B := Rest (or_intror (or_intror Y))). rewrite E in B. discriminate.
    + rewrite (new_part Mysql l (dump a) out N N' P n Id Ic) in Part. apply in_map_iff in Part as (d & <- & _). discriminate E.
    + rewrite (obsolete_part Mysql l (dump a) out N N' P n Ic Id) in Part. destruct Part as [<-|[]]. discriminate E.
    + rewrite (unknown_part Mysql l (dump a) out N N' P n Ic Id) in Part. destruct Part.
  - assert (Part : In s (table_part n out)) by (unfold table_part; apply filter_In; split; [exact S|rewrite E; cbn; apply String.eqb_refl]).
    destruct (in_dec string_dec n (created l)) as [Id|Id], (in_dec string_dec n (created (dump a))) as [Ic|Ic].
    + rewrite dump_created in Ic. apply in_map_iff in Ic as (ct & Ec & Ic). unfold created in Id. apply in_map_iff in Id as (t & Et & Ht).
      destruct (kept_sections Mysql l (dump a) out N N' P t (numbered_table ct) Ht (in_dump_schema a ct Ic) (eq_trans Ec (eq_sym Et)))
        as (cols & rem & pk & idx & ainc & fks & cix & H1 & H2 & H3 & H4 & H5 & H6 & H7 & Hp).
      rewrite Et in Hp. rewrite Hp in Part. rewrite !in_app_iff in Part.
      assert (No : forall k (o : list stmt), Forall (fun s => k (s_eff s) = true) o -> In s o -> k (s_eff s) = true).
      { intros k o F Y. rewrite Forall_forall in F. exact (F s Y). }
      assert (Place : forall x c p (o : list stmt) f (LL : list column), s_eff s = EffChangeColumn n x c p -> (forall z w, f z = Ok w -> Forall (fun s => changes_in_place (s_eff s) = true) w) ->
        concat_map f LL = Ok o -> In s o -> p = PosNone).
      { intros x0 c0 p0 o f LL Es F Co Y. pose proof (No changes_in_place o (all_concat_map changes_in_place f LL o (fun z w _ => F z w) Co) Y) as B. rewrite Es in B. now destruct p0. }
      assert (Rest : In s pk \/ In s idx \/ In s fks \/ In s (flat_map (standalone Mysql (numbered_table ct)) (statements_on n l)) \/
        In s (cleanup_fks Mysql (numbered_table ct) (full_table l t)) \/ In s cix \/ In s (cleanup_columns Mysql (numbered_table ct) (full_table l t)) \/
        In s (cleanup_policies Mysql (numbered_table ct) (full_table l t)) -> neither_changes_nor_uniques (s_eff s) = true).
      { intros [Y|[Y|[Y|[Y|[Y|[Y|[Y|Y]]]]]]].
        - pose proof (No _ _ (kind_primary_key _ _ _ _ H3) Y) as B. now destruct (s_eff s).
        - pose proof (No k_index idx (all_concat_map k_index _ _ _ (fun x o _ Hx => kind_ix _ _ _ x o Hx) H4) Y) as B. now destruct (s_eff s).
        - pose proof (No k_fk fks (all_concat_map k_fk _ _ _ (fun x o _ Hx => kind_fk _ _ _ x o Hx) H6) Y) as B. now destruct (s_eff s).
        - pose proof (No _ _ (kind_standalone _ _ _) Y) as B. now destruct (s_eff s).
        - pose proof (No _ _ (kind_cleanup_fks _ _ _) Y) as B. now destruct (s_eff s).
        - pose proof (No _ _ (kind_cleanup_indexes _ _ _ _ H7) Y) as B. now destruct (s_eff s).
        - apply in_flat_map in Y as (z & _ & Y). destruct (contains_string _ _) in Y; [destruct Y|]. destruct Y as [<-|[]]. reflexivity.
        - pose proof (No _ _ (kind_cleanup_policies _ _ _) Y) as B. now destruct (s_eff s). }
      exists t. destruct Part as [Y|[Y|[Y|[Y|[Y|Y]]]]].
      * destruct (column_section _ _ s _ _ _ H1 Y) as (prev & c0 & X & Z). rewrite E in Z. destruct Z as [Z1 Z2]. exists c0.
        split; [exact Ht|]. split; [exact Et|]. split; [|now split]. destruct (previous_split _ _ _ _ X) as (d1 & d2 & -> & _). apply in_or_app. right. now left.
      * pose proof (No _ _ (kind_remove_autoinc _ _ _ _ H2) Y) as B. rewrite E in B. discriminate.
      * assert (B := Rest (or_introl Y)). rewrite E in B. discriminate.
      * assert (B := Rest (or_intror (or_introl Y))). rewrite E in B. discriminate.
      * pose proof (No _ _ (kind_add_autoinc _ _ _ _ H5) Y) as B. rewrite E in B. discriminate.
      * assert (B := Rest (or_intror (or_intror Y))). rewrite E in B. discriminate.
    + rewrite (new_part Mysql l (dump a) out N N' P n Id Ic) in Part. apply in_map_iff in Part as (d & <- & _). discriminate E.
    + rewrite (obsolete_part Mysql l (dump a) out N N' P n Ic Id) in Part. destruct Part as [<-|[]]. discriminate E.
    + rewrite (unknown_part Mysql l (dump a) out N N' P n Ic Id) in Part. destruct Part.
  - assert (Part : In s (table_part n out)) by (unfold table_part; apply filter_In; split; [exact S|rewrite E; cbn; apply String.eqb_refl]).
    destruct (in_dec string_dec n (created l)) as [Id|Id], (in_dec string_dec n (created (dump a))) as [Ic|Ic].
    + rewrite dump_created in Ic. apply in_map_iff in Ic as (ct & Ec & Ic). unfold created in Id. apply in_map_iff in Id as (t & Et & Ht).
      exists t. split; [exact Ht|]. split; [exact Et|].
      destruct (kept_sections Mysql l (dump a) out N N' P t (numbered_table ct) Ht (in_dump_schema a ct Ic) (eq_trans Ec (eq_sym Et)))
        as (cols & rem & pk & idx & ainc & fks & cix & H1 & H2 & H3 & H4 & H5 & H6 & H7 & Hp).
      rewrite Et in Hp. rewrite Hp in Part. rewrite !in_app_iff in Part.
      assert (No : forall k (o : list stmt), Forall (fun s => k (s_eff s) = true) o -> k (EffAddPrimaryKey n i) = false -> ~ In s o).
      { intros k o F Z Y. rewrite Forall_forall in F. specialize (F s Y). rewrite E in F. congruence. }
      destruct Part as [Y|[Y|[Y|[Y|[Y|[Y|[Y|[Y|[Y|[Y|Y]]]]]]]]]].
      * destruct (No _ _ (kind_columns _ _ _ _ _ _ H1) eq_refl Y).
      * destruct (No _ _ (kind_remove_autoinc _ _ _ _ H2) eq_refl Y).
      * unfold ddls_primary_key in H3. destruct (are_same_primary_keys _ _); [injection H3 as <-; destruct Y|]. bind_inv H3. bind_inv H3. injection H3 as <-.
        apply in_app_or in Y as [Y|Y].
        -- exfalso. destruct (primary_key (numbered_table ct)); injection E0 as <-; [|destruct Y]. destruct Y as [<-|[]]. discriminate E.
        -- destruct (primary_key t) as [j|]; [|injection E1 as <-; destruct Y]. bind_inv E1. injection E1 as <-. destruct Y as [<-|[]].
           unfold stmt_add_index in E2. bind_inv E2. injection E2 as <-. cbn [s_eff] in E. destruct (i_primary j) eqn:Pj; [|discriminate E]. injection E as _ ->. now split.
      * destruct (No k_index idx (all_concat_map k_index _ _ _ (fun x o _ Hx => kind_ix _ _ _ x o Hx) H4) eq_refl Y).
      * destruct (No _ _ (kind_add_autoinc _ _ _ _ H5) eq_refl Y).
      * destruct (No k_fk fks (all_concat_map k_fk _ _ _ (fun x o _ Hx => kind_fk _ _ _ x o Hx) H6) eq_refl Y).
      * destruct (No _ _ (kind_standalone _ _ _) eq_refl Y).
      * destruct (No _ _ (kind_cleanup_fks _ _ _) eq_refl Y).
      * exfalso. assert (F : Forall (fun s => adds_no_primary (s_eff s) = true) cix).
        { apply (all_concat_map adds_no_primary) in H7; [exact H7|]. intros x o _ Hx. cbv beta in Hx. destruct (_ || _); [injection Hx as <-; constructor|]. unfold absent_index in Hx.
          repeat match type of Hx with context [match ?z with _ => _ end] => destruct z end; try discriminate; injection Hx as <-; repeat constructor. }
        exact (No adds_no_primary _ F eq_refl Y).
      * destruct (No _ _ (kind_cleanup_columns _ _ _) eq_refl Y).
      * destruct (No _ _ (kind_cleanup_policies _ _ _) eq_refl Y).
    + rewrite (new_part Mysql l (dump a) out N N' P n Id Ic) in Part. apply in_map_iff in Part as (d & <- & _). discriminate E.
    + rewrite (obsolete_part Mysql l (dump a) out N N' P n Ic Id) in Part. destruct Part as [<-|[]]. discriminate E.
    + rewrite (unknown_part Mysql l (dump a) out N N' P n Ic Id) in Part. destruct Part.
  - assert (Part : In s (table_part n out)) by (unfold table_part; apply filter_In; split; [exact S|rewrite E; cbn; apply String.eqb_refl]).
    destruct (in_dec string_dec n (created l)) as [Id|Id], (in_dec string_dec n (created (dump a))) as [Ic|Ic].
    + rewrite dump_created in Ic. apply in_map_iff in Ic as (ct & Ec & Ic). unfold created in Id. apply in_map_iff in Id as (t & Et & Ht).
      exists t. split; [exact Ht|]. split; [exact Et|].
      destruct (kept_sections Mysql l (dump a) out N N' P t (numbered_table ct) Ht (in_dump_schema a ct Ic) (eq_trans Ec (eq_sym Et)))
        as (cols & rem & pk & idx & ainc & fks & cix & H1 & H2 & H3 & H4 & H5 & H6 & H7 & Hp).
      rewrite Et in Hp. rewrite Hp in Part. rewrite !in_app_iff in Part.
      assert (No : forall k (o : list stmt), Forall (fun s => k (s_eff s) = true) o -> k (EffAddIndex n i) = false -> ~ In s o).
      { intros k o F Z Y. rewrite Forall_forall in F. specialize (F s Y). rewrite E in F. congruence. }
      destruct Part as [Y|[Y|[Y|[Y|[Y|[Y|[Y|[Y|[Y|[Y|Y]]]]]]]]]].
      * destruct (No _ _ (kind_columns _ _ _ _ _ _ H1) eq_refl Y).
      * destruct (No _ _ (kind_remove_autoinc _ _ _ _ H2) eq_refl Y).
      * destruct (No _ _ (kind_primary_key _ _ _ _ H3) eq_refl Y).
      * clear Hp. revert H4 Y. generalize (t_indexes t) as L. intros L. revert idx. induction L as [|x L IH]; cbn [concat_map]; intros idx H4 Y; [injection H4 as <-; destruct Y|].
        bind_inv H4. bind_inv H4. injection H4 as <-. apply in_app_or in Y as [Y|Y]; [|destruct (IH _ eq_refl Y) as [Q1 Q2]; split; [now right|exact Q2]].
        unfold ddls_index in E0. destruct (i_primary x) eqn:Px; [injection E0 as <-; destruct Y|].
        assert (Q : forall st, stmt_add_index Mysql (t_name t) x = Ok st -> s = st -> i = x).
        { intros st Z ->. rewrite (add_index_secondary _ _ _ _ Px Z) in E. congruence. }
        destruct (find_index _ _) as [ci|].
        -- destruct (are_same_indexes ci x); [injection E0 as <-; destruct Y|]. bind_inv E0. injection E0 as <-.
           destruct Y as [Y|[Y|[]]]; [rewrite <- Y in E; discriminate|]. rewrite (Q _ eq_refl (eq_sym Y)). split; [now left|exact Px].
        -- bind_inv E0. injection E0 as <-. destruct Y as [Y|[]]. rewrite (Q _ eq_refl (eq_sym Y)). split; [now left|exact Px].
      * destruct (No _ _ (kind_add_autoinc _ _ _ _ H5) eq_refl Y).
      * destruct (No k_fk fks (all_concat_map _ _ _ _ (fun x o _ Hx => kind_fk _ _ _ x o Hx) H6) eq_refl Y).
      * apply in_flat_map in Y as (d & _ & Y). destruct d; cbn [standalone] in Y; try destruct Y;
          repeat match type of Y with context [match ?z with Some _ => _ | None => _ end] => destruct z | context [if ?z then _ else _] => destruct z end;
          repeat (destruct Y as [Y|Y]; [rewrite <- Y in E; discriminate E|]); destruct Y.
      * destruct (No _ _ (kind_cleanup_fks _ _ _) eq_refl Y).
      * assert (F : Forall (fun s => adds_no_index (s_eff s) = true) cix).
        { apply (all_concat_map adds_no_index) in H7; [exact H7|]. intros x o _ Hx. cbv beta in Hx. destruct (_ || _); [injection Hx as <-; constructor|]. unfold absent_index in Hx.
          repeat match type of Hx with context [match ?z with _ => _ end] => destruct z end; try discriminate; injection Hx as <-; repeat constructor. }
        destruct (No adds_no_index _ F eq_refl Y).
      * destruct (No _ _ (kind_cleanup_columns _ _ _) eq_refl Y).
      * destruct (No _ _ (kind_cleanup_policies _ _ _) eq_refl Y).
    + rewrite (new_part Mysql l (dump a) out N N' P n Id Ic) in Part. apply in_map_iff in Part as (d & <- & _). discriminate E.
    + rewrite (obsolete_part Mysql l (dump a) out N N' P n Ic Id) in Part. destruct Part as [<-|[]]. discriminate E.
    + rewrite (unknown_part Mysql l (dump a) out N N' P n Ic Id) in Part. destruct Part.
  - intros t Ht En. assert (Part : In s (table_part n out)) by (unfold table_part; apply filter_In; split; [exact S|rewrite E; cbn; apply String.eqb_refl]).
    destruct (in_dec string_dec n (created (dump a))) as [Ic|Ic].
    + rewrite dump_created in Ic. apply in_map_iff in Ic as (ct & Ec & Ic).
      destruct (fk_ops_exact Mysql l (dump a) out N N' P t (numbered_table ct) Ht (in_dump_schema a ct Ic) (eq_trans Ec (eq_sym En))) as (x & y & X & Y & Z).
      assert (H : In (Add f) (effects (fk_ops (t_name t)) out)).
      { unfold effects. apply in_flat_map. exists s. split; [exact S|]. rewrite E, En. cbn. rewrite String.eqb_refl. now left. }
      rewrite Z in H. apply in_app_or in H as [H|H].
      * destruct (contrib_in _ _ _ X _ H) as (g & o & G & Q & W'). unfold desired_fk in Q. destruct (named _ _ _).
        -- destruct Q as [[_ ->]|[_ ->]]; [destruct W'|]. cbn in W'. destruct W' as [W'|[W'|[]]]; [discriminate|]. injection W' as <-. exact G.
        -- subst o. destruct W' as [W'|[]]. injection W' as <-. exact G.
      * destruct (contrib_in _ _ _ Y _ H) as (g & o & G & [[_ ->]|[_ ->]] & W'); [destruct W'|]. destruct W' as [W'|[]]. discriminate.
    + rewrite (new_part Mysql l (dump a) out N N' P n) in Part; [|rewrite <- En; unfold created; now apply in_map|exact Ic].
      apply in_map_iff in Part as (d & <- & _). discriminate E.
Qed.

Lemma my_attempts_ok a b : my_attempts l a b -> catalogue_ok a -> convertible l a -> catalogue_ok b /\ convertible l b.
Proof.
  induction 1 as [a|a b c (out & pre & post & P & E & W & R) _ IH]; intros K C; [now split|].
  destruct (run_all_keeps pre a b) as [K' C']; auto. intros s S. apply (plan_planned a out K P); [|now apply W]. rewrite E. apply in_or_app. now left.
Qed.
Theorem my_resumed a b out : catalogue_ok a -> convertible l a -> my_attempts l a b -> plan Mysql l (dump b) = Ok out ->
  exists c, run_all out b = Some c /\ reached l c /\ plan Mysql l (dump c) = Ok [].
Proof.
  intros K C A P. destruct (my_attempts_ok a b A K C) as [K' C']. destruct (converges l b out Hms K' C' P) as (c & R & H & _ & Q). exists c. split; [exact R|]. now split.
Qed.

(** ** Files without AUTO_INCREMENT: stopped anywhere *)
Hypothesis Hno : forall t c, In t (tables_in l) -> In c (t_columns t) -> c_autoinc c = false.

Lemma section_uncounted ct t s : forall L q o, (forall c, In c L -> c_autoinc c = false) -> ddls_columns Mysql ct t q L = Ok o -> In s o ->
  match s_eff s with EffChangeColumn _ _ c _ => c_autoinc c = false | _ => True end.
Proof.
  induction L as [|c L IH]; intros q o Z H S; cbn [ddls_columns] in H; [injection H as <-; destruct S|]. bind_inv H. bind_inv H. injection H as <-.
  apply in_app_or in S as [S|S]; [|refine (IH _ _ (fun x X => Z x (or_intror X)) _ S); eassumption || reflexivity].
  unfold ddls_column in E. destruct (find_column _ _) as [cc|].
  - set (dc := if c_autoinc cc then c else set_autoinc false c) in *.
    assert (Da : c_autoinc dc = false) by (unfold dc; destruct (c_autoinc cc); [apply Z; now left|reflexivity]).
    unfold ddls_column_mysql in E. bind_inv E. injection E as <-. apply in_app_or in S as [S|S].
    + destruct (_ || _) in E1; [|injection E1 as <-; destruct S]. bind_inv E1. injection E1 as <-. destruct S as [<-|[]]. exact Da.
    + destruct (_ && _) in S; [|destruct S]. destruct S as [<-|[]]. exact I.
  - unfold ddls_new_column in E. bind_inv E. injection E as <-. destruct S as [<-|[]]. exact I.
Qed.

Definition counts_not (e : effect) : bool := match e with EffChangeColumn _ _ c _ => negb (c_autoinc c) | _ => true end.

Lemma uncounted a out s : catalogue_ok a -> plan Mysql l (dump a) = Ok out -> In s out -> may_stop_after l (s_eff s).
Proof.
  intros K P S. pose proof (ms_created _ Hms) as N. assert (N' : NoDup (created (dump a))) by (rewrite dump_created; apply K).
  destruct (s_eff s) as [d| | | | | | |tr| |n c p|n x c p| |n x| | | | | | | | | | | | |n| |n i|n i|n i| |n f|n f] eqn:E; cbn [may_stop_after]; try exact I.
  - assert (Part : In s (table_part n out)) by (unfold table_part; apply filter_In; split; [exact S|rewrite E; cbn; apply String.eqb_refl]).
    destruct (in_dec string_dec n (created l)) as [Id|Id], (in_dec string_dec n (created (dump a))) as [Ic|Ic].
    + rewrite dump_created in Ic. apply in_map_iff in Ic as (ct & Ec & Ic). unfold created in Id. apply in_map_iff in Id as (t & Et & Ht).
      destruct (kept_sections Mysql l (dump a) out N N' P t (numbered_table ct) Ht (in_dump_schema a ct Ic) (eq_trans Ec (eq_sym Et)))
        as (cols & rem & pk & idx & ainc & fks & cix & H1 & H2 & H3 & H4 & H5 & H6 & H7 & Hp).
      rewrite Et in Hp. rewrite Hp in Part. rewrite !in_app_iff in Part.
      assert (No : forall k (o : list stmt), Forall (fun s => k (s_eff s) = true) o -> k (EffChangeColumn n x c p) = false -> ~ In s o).
      { intros k o F Z Y. rewrite Forall_forall in F. specialize (F s Y). rewrite E in F. congruence. }
      destruct Part as [Y|[Y|[Y|[Y|[Y|[Y|[Y|[Y|[Y|[Y|Y]]]]]]]]]].
      * pose proof (section_uncounted _ _ s _ _ _ (fun z Z => Hno t z Ht Z) H1 Y) as Z. rewrite E in Z. exact Z.
      * apply negb_true_iff. destruct (negb (c_autoinc c)) eqn:Z; [reflexivity|]. exfalso. assert (F : Forall (fun s => counts_not (s_eff s) = true) rem).
        { apply (all_concat_map counts_not) in H2; [exact H2|]. intros z w _ Hz. cbv beta zeta in Hz. destruct (_ && _) in Hz; [|injection Hz as <-; constructor]. bind_inv Hz. injection Hz as <-. repeat constructor. }
        exact (No counts_not _ F Z Y).
      * destruct (No _ _ (kind_primary_key _ _ _ _ H3) eq_refl Y).
      * destruct (No k_index idx (all_concat_map k_index _ _ _ (fun x o _ Hx => kind_ix _ _ _ x o Hx) H4) eq_refl Y).
      * exfalso. assert (F : Forall (fun s => (fun _ : effect => false) (s_eff s) = true) ainc).
        { unfold ddls_add_autoinc in H5. apply (all_concat_map (fun _ => false)) in H5; [exact H5|]. intros z w Hz Hw. cbv beta zeta in Hw.
          rewrite (Hno t z Ht Hz) in Hw. cbn [andb] in Hw. injection Hw as <-. constructor. }
        exact (No (fun _ => false) _ F eq_refl Y).
      * destruct (No k_fk fks (all_concat_map k_fk _ _ _ (fun x o _ Hx => kind_fk _ _ _ x o Hx) H6) eq_refl Y).
      * destruct (No _ _ (kind_standalone _ _ _) eq_refl Y).
      * destruct (No _ _ (kind_cleanup_fks _ _ _) eq_refl Y).
      * destruct (No _ _ (kind_cleanup_indexes _ _ _ _ H7) eq_refl Y).
      * exfalso. apply in_flat_map in Y as (z & _ & Y). destruct (contains_string _ _) in Y; [destruct Y|]. destruct Y as [<-|[]]. discriminate E.
      * destruct (No _ _ (kind_cleanup_policies _ _ _) eq_refl Y).
    + rewrite (new_part Mysql l (dump a) out N N' P n Id Ic) in Part. apply in_map_iff in Part as (d & <- & _). discriminate E.
    + rewrite (obsolete_part Mysql l (dump a) out N N' P n Ic Id) in Part. destruct Part as [<-|[]]. discriminate E.
    + rewrite (unknown_part Mysql l (dump a) out N N' P n Ic Id) in Part. destruct Part.
  - intros t z Ht _ Hz. exact (Hno t z Ht Hz).
  - intros t z Ht _ Hz. exact (Hno t z Ht Hz).
Qed.

Lemma often_ok a b : my_stopped_often l a b -> catalogue_ok a -> convertible l a -> my_attempts l a b.
Proof.
  induction 1 as [a|a b c (out & pre & post & P & E & R) _ IH]; intros K C; [constructor|].
  assert (M : my_attempt l a b).
  { exists out, pre, post. split; [exact P|]. split; [exact E|]. split; [|exact R]. intros s S. apply (uncounted a out s K P). rewrite E. apply in_or_app. now left. }
  destruct (my_attempts_ok a b (my_more _ _ _ _ M (my_none _ _)) K C) as [K' C']. exact (my_more _ _ _ _ M (IH K' C')).
Qed.
Theorem my_resumed_anywhere a b out : catalogue_ok a -> convertible l a -> my_stopped_often l a b -> plan Mysql l (dump b) = Ok out ->
  exists c, run_all out b = Some c /\ reached l c /\ plan Mysql l (dump c) = Ok [].
Proof. intros K C A. apply (my_resumed a b out K C). now apply often_ok. Qed.
End Run.
