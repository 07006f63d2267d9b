(** The planner's simulated state, related to what the statements declare; the plan as a
    sum of local plans. *)
From Coq Require Import String Ascii List ZArith Bool Lia.
From Verif Require Import GoStr GoStrFacts Ast Generator SpecPlan.
Import ListNotations.
Local Open Scope string_scope.
Local Open Scope list_scope.

(** ** Lists of names *)
Lemma mem_spec x l : mem x l = true <-> In x l.
Proof.
  unfold mem. rewrite existsb_exists. split.
  - intros [y [Hy E]]. apply String.eqb_eq in E. now subst y.
  - intros H. exists x. split; [assumption|]. apply String.eqb_refl.
Qed.

Lemma mem_false x l : mem x l = false <-> ~ In x l.
Proof. rewrite <- mem_spec. destruct (mem x l); intuition congruence. Qed.

Lemma contains_string_mem l x : contains_string l x = mem x l.
Proof.
  destruct (mem x l) eqn:E.
  - apply mem_spec in E. now apply contains_string_spec.
  - apply mem_false in E. now apply contains_string_false.
Qed.

Lemma mem_app x a b : mem x (a ++ b) = mem x a || mem x b.
Proof. apply existsb_app. Qed.

Lemma NoDup_app_l {A} (a b : list A) : NoDup (a ++ b) -> NoDup a.
Proof.
  induction a as [|x a IH]; simpl; intros H; [constructor|]. inversion H as [|? ? Hx Ha]; subst.
  constructor; [|auto]. intros Hi. apply Hx. apply in_or_app. now left.
Qed.

Lemma NoDup_app_r {A} (a b : list A) : NoDup (a ++ b) -> NoDup b.
Proof. induction a as [|x a IH]; simpl; intros H; [assumption|]. inversion H; auto. Qed.

Definition out {A} (nm : A -> string) (K : list string) (l : list A) : list A :=
  filter (fun x => negb (mem (nm x) K)) l.

Lemma out_app {A} (nm : A -> string) K a b : out nm K (a ++ b) = out nm K a ++ out nm K b.
Proof. apply filter_app. Qed.

Lemma out_all {A} (nm : A -> string) K l : (forall x, In x l -> In (nm x) K) -> out nm K l = [].
Proof.
  induction l as [|a l IH]; simpl; intros H; [reflexivity|].
  assert (Ha : mem (nm a) K = true) by (apply mem_spec; auto). unfold out in *. simpl. rewrite Ha. simpl. auto.
Qed.

Lemma out_out {A} (nm : A -> string) K K' l : incl K K' -> out nm K' (out nm K l) = out nm K' l.
Proof.
  intros HK. unfold out. induction l as [|a l IH]; simpl; [reflexivity|].
  destruct (mem (nm a) K) eqn:E; simpl.
  - assert (E' : mem (nm a) K' = true) by (apply mem_spec, HK, mem_spec; assumption). now rewrite E'.
  - destruct (mem (nm a) K'); simpl; [assumption|]. now rewrite IH.
Qed.

Lemma out_mono {A} (nm : A -> string) K K' (a b : list A) : incl K K' -> out nm K a = out nm K b -> out nm K' a = out nm K' b.
Proof. intros HK H. rewrite <- (out_out nm K K' a HK), <- (out_out nm K K' b HK). now rewrite H. Qed.

Lemma find_out {A} (nm : A -> string) K (l : list A) k : ~ In k K ->
  find (fun x => String.eqb (nm x) k) l = find (fun x => String.eqb (nm x) k) (out nm K l).
Proof.
  intros Hk. unfold out. induction l as [|a l IH]; simpl; [reflexivity|].
  destruct (String.eqb (nm a) k) eqn:E.
  - apply String.eqb_eq in E. subst k. apply mem_false in Hk. rewrite Hk. simpl. now rewrite String.eqb_refl.
  - destruct (mem (nm a) K); simpl; [assumption|]. now rewrite E.
Qed.

(** ** Tables by name *)
Lemma find_table_none l n : find_table l n = None <-> ~ In n (map t_name l).
Proof.
  unfold find_table. induction l as [|t l IH]; simpl; [tauto|].
  destruct (String.eqb (t_name t) n) eqn:E.
  - apply String.eqb_eq in E. split; [discriminate|]. tauto.
  - apply String.eqb_neq in E. rewrite IH. tauto.
Qed.

Lemma find_table_some l n t : find_table l n = Some t -> In t l /\ t_name t = n.
Proof. intros H. apply find_some in H. destruct H as [H1 H2]. apply String.eqb_eq in H2. auto. Qed.

Lemma find_table_app a b n :
  find_table (a ++ b) n = match find_table a n with Some t => Some t | None => find_table b n end.
Proof.
  unfold find_table. induction a as [|t a IH]; simpl; [reflexivity|].
  destruct (String.eqb (t_name t) n); [reflexivity|assumption].
Qed.

Lemma find_table_unique l t : NoDup (map t_name l) -> In t l -> find_table l (t_name t) = Some t.
Proof.
  unfold find_table. induction l as [|a l IH]; simpl; [tauto|]. intros Hn Hi. inversion Hn as [|? ? Ha Hl]; subst.
  destruct Hi as [->|Hi]; [now rewrite String.eqb_refl|].
  destruct (String.eqb (t_name a) (t_name t)) eqn:E; [|auto].
  apply String.eqb_eq in E. destruct Ha. rewrite E. now apply in_map.
Qed.

Lemma find_table_map f l n : (forall t, t_name (f t) = t_name t) ->
  find_table (map f l) n = option_map f (find_table l n).
Proof.
  intros Hf. unfold find_table. induction l as [|t l IH]; simpl; [reflexivity|]. rewrite Hf.
  destruct (String.eqb (t_name t) n); [reflexivity|assumption].
Qed.

Lemma update_table_map f n l : NoDup (map t_name l) ->
  update_table f n l = map (fun t => if String.eqb (t_name t) n then f t else t) l.
Proof.
  induction l as [|t l IH]; simpl; [reflexivity|]. intros H. inversion H as [|? ? Ht Hl]; subst.
  destruct (String.eqb (t_name t) n) eqn:E; [|now rewrite IH].
  f_equal. apply String.eqb_eq in E. subst n. clear IH H Hl. induction l as [|u l IH]; simpl; [reflexivity|].
  simpl in Ht. destruct (String.eqb (t_name u) (t_name t)) eqn:E.
  - apply String.eqb_eq in E. tauto.
  - f_equal. apply IH. tauto.
Qed.

Lemma update_table_names f n l : (forall t, t_name (f t) = t_name t) -> map t_name (update_table f n l) = map t_name l.
Proof.
  intros Hf. induction l as [|t l IH]; simpl; [reflexivity|]. destruct (String.eqb (t_name t) n); simpl; rewrite ?Hf, ?IH; reflexivity.
Qed.

Lemma update_table_absent f n l : ~ In n (map t_name l) -> update_table f n l = l.
Proof.
  induction l as [|t l IH]; simpl; [reflexivity|]. intros H. destruct (String.eqb (t_name t) n) eqn:E.
  - apply String.eqb_eq in E. tauto.
  - rewrite IH; tauto.
Qed.

Lemma update_table_at l n u f g : find_table l n = Some u -> f u = g u -> update_table f n l = update_table g n l.
Proof.
  unfold find_table. induction l as [|x xs IH]; simpl; [reflexivity|]. intros Hx Hfg.
  destruct (String.eqb (t_name x) n); [injection Hx as ->; now rewrite Hfg|]. f_equal. now apply IH.
Qed.

(** ** The declared schema, statement by statement *)
Lemma tables_in_app a b : tables_in (a ++ b) = tables_in a ++ tables_in b.
Proof. apply flat_map_app. Qed.
Lemma created_app a b : created (a ++ b) = created a ++ created b.
Proof. unfold created. rewrite tables_in_app. apply map_app. Qed.
Lemma indexes_on_app n a b : indexes_on n (a ++ b) = indexes_on n a ++ indexes_on n b.
Proof. apply flat_map_app. Qed.
Lemma fks_on_app n a b : fks_on n (a ++ b) = fks_on n a ++ fks_on n b.
Proof. apply flat_map_app. Qed.
Lemma policies_on_app n a b : policies_on n (a ++ b) = policies_on n a ++ policies_on n b.
Proof. apply flat_map_app. Qed.
Lemma pk_marks_app n a b : pk_marks n (a ++ b) = pk_marks n a ++ pk_marks n b.
Proof. apply flat_map_app. Qed.
Lemma views_in_app a b : views_in (a ++ b) = views_in a ++ views_in b.
Proof. apply flat_map_app. Qed.
Lemma inline_app {A} (f : table -> list A) n a b : inline f n (a ++ b) = inline f n a ++ inline f n b.
Proof. unfold inline. now rewrite tables_in_app, flat_map_app. Qed.

Lemma full_table_name l t : t_name (full_table l t) = t_name t.
Proof. reflexivity. Qed.

Lemma schema_names l : map t_name (schema l) = created l.
Proof. unfold schema, created. rewrite map_map. reflexivity. Qed.

(** Statements about a table come after its creation. *)
Definition ordered (l : list ddl) : Prop :=
  forall n, ~ In n (created l) -> indexes_on n l = [] /\ fks_on n l = [] /\ policies_on n l = [] /\ pk_marks n l = [].

Lemma map_mark_nil cs : map (mark []) cs = cs.
Proof. rewrite <- map_id. apply map_ext. reflexivity. Qed.

Lemma table_eta t : mkTable (t_name t) (t_columns t) (t_indexes t) (t_fks t) (t_policies t) = t.
Proof. now destruct t. Qed.

Lemma full_table_fresh l t : ordered l -> ~ In (t_name t) (created l) -> full_table l t = t.
Proof.
  intros Ho Hn. unfold full_table. destruct (Ho _ Hn) as [-> [-> [-> ->]]]. rewrite map_mark_nil, !app_nil_r. apply table_eta.
Qed.

Lemma full_table_other l d t :
  (match d with
   | CreateIndex _ n _ | AddIndex _ n _ | AddForeignKey _ n _ | AddPolicy _ n _ | AddPrimaryKey _ n _ => n <> t_name t
   | _ => True end) -> full_table (l ++ [d]) t = full_table l t.
Proof.
  intros H. unfold full_table. rewrite indexes_on_app, fks_on_app, policies_on_app, pk_marks_app.
  destruct d; simpl; rewrite ?app_nil_r; try reflexivity;
    apply String.eqb_neq in H; rewrite H, ?app_nil_r; reflexivity.
Qed.

Lemma full_table_not_created l d : (forall s u, d <> CreateTable s u) -> tables_in (l ++ [d]) = tables_in l.
Proof. intros H. rewrite tables_in_app. destruct d; simpl; try apply app_nil_r. now destruct (H statement t). Qed.

Lemma schema_snoc_create l s t : ordered l -> ~ In (t_name t) (created l) ->
  schema (l ++ [CreateTable s t]) = schema l ++ [t].
Proof.
  intros Ho Hn. unfold schema. rewrite tables_in_app, map_app. simpl. f_equal.
  - apply map_ext. intros u. now apply full_table_other.
  - f_equal. rewrite full_table_other by exact I. now apply full_table_fresh.
Qed.

Lemma schema_snoc_other l d f n :
  NoDup (created l) ->
  (forall s u, d <> CreateTable s u) ->
  (forall t, t_name t <> n -> full_table (l ++ [d]) t = full_table l t) ->
  (forall t, t_name t = n -> full_table (l ++ [d]) t = f (full_table l t)) ->
  schema (l ++ [d]) = update_table f n (schema l).
Proof.
  intros Hd Hc H1 H2. rewrite update_table_map by (now rewrite schema_names).
  unfold schema. rewrite full_table_not_created by assumption.
  rewrite map_map. apply map_ext. intros t. rewrite full_table_name.
  destruct (String.eqb (t_name t) n) eqn:E.
  - apply String.eqb_eq in E. auto.
  - apply String.eqb_neq in E. auto.
Qed.

Definition add_index_to i t := set_indexes (t_indexes t ++ [i]) t.
Definition add_fk_to f t := set_fks (t_fks t ++ [f]) t.
Definition add_policy_to p t := set_policies (t_policies t ++ [p]) t.

Lemma schema_snoc_index l d n i : (exists s, d = CreateIndex s n i \/ d = AddIndex s n i) -> NoDup (created l) ->
  schema (l ++ [d]) = update_table (add_index_to i) n (schema l).
Proof.
  intros [s Hd] Hn. apply schema_snoc_other; auto.
  - destruct Hd as [-> | ->]; discriminate.
  - intros t Ht. apply full_table_other. destruct Hd as [-> | ->]; congruence.
  - intros t Ht. unfold full_table, add_index_to, set_indexes. simpl.
    rewrite indexes_on_app, fks_on_app, policies_on_app, pk_marks_app.
    destruct Hd as [-> | ->]; simpl; rewrite Ht, String.eqb_refl, !app_nil_r, app_assoc; reflexivity.
Qed.

Lemma schema_snoc_fk l s n f : NoDup (created l) ->
  schema (l ++ [AddForeignKey s n f]) = update_table (add_fk_to f) n (schema l).
Proof.
  intros Hn. apply schema_snoc_other; auto.
  - discriminate.
  - intros t Ht. apply full_table_other. congruence.
  - intros t Ht. unfold full_table, add_fk_to, set_fks. simpl.
    rewrite indexes_on_app, fks_on_app, policies_on_app, pk_marks_app.
    simpl. rewrite Ht, String.eqb_refl, !app_nil_r, app_assoc. reflexivity.
Qed.

Lemma schema_snoc_policy l s n p : NoDup (created l) ->
  schema (l ++ [AddPolicy s n p]) = update_table (add_policy_to p) n (schema l).
Proof.
  intros Hn. apply schema_snoc_other; auto.
  - discriminate.
  - intros t Ht. apply full_table_other. congruence.
  - intros t Ht. unfold full_table, add_policy_to, set_policies. simpl.
    rewrite indexes_on_app, fks_on_app, policies_on_app, pk_marks_app.
    simpl. rewrite Ht, String.eqb_refl, !app_nil_r, app_assoc. reflexivity.
Qed.

Lemma schema_snoc_neutral l d : (exists v, d = DView v) \/ (exists t, d = DTrigger t) -> schema (l ++ [d]) = schema l.
Proof.
  intros H. unfold schema. rewrite tables_in_app.
  destruct H as [[v ->]|[t ->]]; simpl; rewrite app_nil_r; apply map_ext; intros u; now apply full_table_other.
Qed.

Lemma find_schema l n : find_table (schema l) n = option_map (full_table l) (find_table (tables_in l) n).
Proof. apply find_table_map. reflexivity. Qed.

Lemma inline_unique {A} (f : table -> list A) l n t :
  NoDup (created l) -> find_table (tables_in l) n = Some t -> inline f n l = f t.
Proof.
  unfold created, inline. generalize (tables_in l) as ts. induction ts as [|u ts IH]; simpl; [discriminate|].
  intros Hn Hf. inversion Hn as [|? ? Hu Hts]; subst. unfold find_table in Hf. simpl in Hf.
  destruct (String.eqb (t_name u) n) eqn:E.
  - injection Hf as ->. apply String.eqb_eq in E. subst n.
    assert (H : flat_map (fun x => if String.eqb (t_name x) (t_name t) then f x else []) ts = []).
    { clear -Hu. induction ts as [|u ts IH]; simpl; [reflexivity|]. simpl in Hu.
      destruct (String.eqb (t_name u) (t_name t)) eqn:E; [apply String.eqb_eq in E; tauto|]. apply IH. tauto. }
    rewrite H. apply app_nil_r.
  - apply IH; auto.
Qed.

Lemma schema_index_names l n dt : NoDup (created l) -> find_table (schema l) n = Some dt ->
  index_names (t_indexes dt) = index_names_of n l /\ fk_names (t_fks dt) = fk_names_of n l /\
  policy_names (t_policies dt) = policy_names_of n l.
Proof.
  intros Hn H. rewrite find_schema in H. destruct (find_table (tables_in l) n) as [t|] eqn:E; [|discriminate].
  injection H as <-. pose proof (find_table_some _ _ _ E) as [_ Ht].
  unfold index_names_of, fk_names_of, policy_names_of. rewrite !(inline_unique _ _ _ _ Hn E).
  unfold full_table. simpl. rewrite Ht. auto.
Qed.

(** ** The current schema *)
Lemma mark_app a b c : mark (a ++ b) c = mark b (mark a c).
Proof.
  unfold mark. rewrite mem_app. destruct (mem (c_name c) a) eqn:Ea; simpl.
  - destruct (mem (c_name c) b); reflexivity.
  - reflexivity.
Qed.

Lemma ordered_snoc l d : ordered l ->
  (match d with
   | CreateIndex _ n _ | AddIndex _ n _ | AddForeignKey _ n _ | AddPolicy _ n _ | AddPrimaryKey _ n _ => In n (created l)
   | _ => True end) -> ordered (l ++ [d]).
Proof.
  intros Ho Hd n Hn. rewrite created_app, in_app_iff in Hn.
  assert (Hl : ~ In n (created l)) by tauto. destruct (Ho n Hl) as [H1 [H2 [H3 H4]]].
  rewrite indexes_on_app, fks_on_app, policies_on_app, pk_marks_app, H1, H2, H3, H4.
  destruct d as [s u|s u i|s u i|s u i|s u f|s u p|v|t]; simpl; auto;
    (destruct (String.eqb u n) eqn:E; [apply String.eqb_eq in E; subst; tauto|auto]).
Qed.

Lemma mark_primary_eq i u ic ics : i_columns i = ic :: ics ->
  mark_primary i u = Ok (set_columns (map (mark [ic_column ic]) (t_columns u)) u).
Proof.
  intros Hi. unfold mark_primary. rewrite Hi. destruct u as [un uc ui uf up]. simpl. destruct uc as [|c cs]; [reflexivity|].
  unfold set_columns. do 2 f_equal. apply map_ext. intros x. unfold mark. simpl. now rewrite orb_false_r.
Qed.

Lemma convert_step_schema l d :
  ordered l -> NoDup (created (l ++ [d])) ->
  if may_follow_current l d
  then convert_step (schema l) d = Ok (schema (l ++ [d])) /\ ordered (l ++ [d])
  else forall ts, convert_step (schema l) d = Ok ts -> ts = schema (l ++ [d]) /\ exists s n i, d = AddPrimaryKey s n i /\ i_columns i = [] /\ In n (created l).
Proof.
  intros Ho Hn.
  assert (Hnl : NoDup (created l)) by (rewrite created_app in Hn; exact (NoDup_app_l _ _ Hn)).
  assert (Hfind : forall n, mem n (created l) = true -> exists t, find_table (schema l) n = Some t).
  { intros n H. destruct (find_table (schema l) n) eqn:E; [eauto|]. apply find_table_none in E. rewrite schema_names in E.
    apply mem_spec in H. tauto. }
  assert (Hnone : forall n, mem n (created l) = false -> find_table (schema l) n = None).
  { intros n H. apply find_table_none. rewrite schema_names. now apply mem_false. }
  destruct d as [s t|s n i|s n i|s n i|s n f|s n p|v|t]; simpl.
  - assert (Hf : ~ In (t_name t) (created l)).
    { rewrite created_app in Hn. simpl in Hn. apply NoDup_remove_2 in Hn. now rewrite app_nil_r in Hn. }
    split; [|apply ordered_snoc; auto]. now rewrite schema_snoc_create.
  - destruct (mem n (created l)) eqn:E.
    + destruct (Hfind n E) as [u ->]. split; [|apply ordered_snoc; auto; now apply mem_spec].
      f_equal. symmetry. apply schema_snoc_index; eauto.
    + intros ts H. rewrite (Hnone n E) in H. discriminate.
  - intros ts H. discriminate.
  - destruct (mem n (created l)) eqn:E; simpl.
    2:{ intros ts H. rewrite (Hnone n E) in H. discriminate. }
    destruct (Hfind n E) as [u Hu].
    assert (Hsch : forall g, (i_columns i <> [] -> t_columns u = t_columns u) ->
       (g = fun t => set_columns (map (mark (map ic_column (firstn 1 (i_columns i)))) (t_columns t)) t) ->
       schema (l ++ [AddPrimaryKey s n i]) = update_table g n (schema l)).
    { intros g _ ->. apply schema_snoc_other; auto.
      - discriminate.
      - intros t Ht. apply full_table_other. congruence.
      - intros t Ht. unfold full_table, set_columns. simpl.
        rewrite indexes_on_app, fks_on_app, policies_on_app, pk_marks_app. simpl.
        rewrite Ht, String.eqb_refl, !app_nil_r, map_map. f_equal.
        apply map_ext. intros c. apply mark_app. }
    pose proof (find_table_some _ _ _ Hu) as [_ Hun].
    assert (Hup : forall f g, f u = g u -> update_table f n (schema l) = update_table g n (schema l)).
    { intros f g Hfg. now apply (update_table_at _ _ u). }
    destruct (i_columns i) as [|ic ics] eqn:Ei; simpl.
    + intros ts. rewrite Hu. unfold mark_primary. rewrite Ei.
      destruct (t_columns u) as [|c cs] eqn:Ec; simpl; [|discriminate].
      intros [= <-]. split.
      * symmetry. rewrite (Hsch _ (fun _ => eq_refl) eq_refl). apply Hup. destruct u; simpl in *. subst. reflexivity.
      * exists s, n, i. repeat split; auto. now apply mem_spec.
    + rewrite Hu, (mark_primary_eq i u ic ics Ei).
      split; [|apply ordered_snoc; auto; now apply mem_spec].
      rewrite (Hsch _ (fun _ => eq_refl) eq_refl). simpl. f_equal. now apply Hup.
  - destruct (mem n (created l)) eqn:E.
    + destruct (Hfind n E) as [u ->]. split; [|apply ordered_snoc; auto; now apply mem_spec].
      f_equal. symmetry. now apply schema_snoc_fk.
    + intros ts H. rewrite (Hnone n E) in H. discriminate.
  - destruct (mem n (created l)) eqn:E.
    + destruct (Hfind n E) as [u ->]. split; [|apply ordered_snoc; auto; now apply mem_spec].
      f_equal. symmetry. now apply schema_snoc_policy.
    + intros ts H. rewrite (Hnone n E) in H. discriminate.
  - split; [|apply ordered_snoc; auto]. f_equal. symmetry. apply schema_snoc_neutral. eauto.
  - split; [|apply ordered_snoc; auto]. f_equal. symmetry. apply schema_snoc_neutral. eauto.
Qed.

Lemma snoc_app {A} (a : list A) x b : a ++ x :: b = (a ++ [x]) ++ b.
Proof. now rewrite <- app_assoc. Qed.

Lemma NoDup_created_prefix l l2 : NoDup (created (l ++ l2)) -> NoDup (created l).
Proof. rewrite created_app. apply NoDup_app_l. Qed.

Lemma convert_from_schema l2 : forall l, ordered l -> NoDup (created (l ++ l2)) ->
  (readable_after l l2 = true -> convert_from (schema l) l2 = Ok (schema (l ++ l2)) /\ ordered (l ++ l2)) /\
  (forall ts, convert_from (schema l) l2 = Ok ts -> ts = schema (l ++ l2) /\ ordered (l ++ l2)).
Proof.
  induction l2 as [|d l2 IH]; intros l Ho Hn; simpl.
  { rewrite app_nil_r. split; [auto|]. intros ts [= <-]. auto. }
  rewrite (snoc_app l d l2) in Hn |- *. pose proof (NoDup_created_prefix _ _ Hn) as Hn1.
  pose proof (convert_step_schema l d Ho Hn1) as Hs.
  destruct (may_follow_current l d) eqn:E; simpl.
  - destruct Hs as [-> Ho1]. destruct (IH _ Ho1 Hn) as [IH1 IH2]. simpl. split; [exact IH1|exact IH2].
  - split; [discriminate|]. intros ts H. destruct (convert_step (schema l) d) as [ts1| | |] eqn:Hc; try discriminate.
    destruct (Hs ts1 eq_refl) as [-> [s [n [i [-> [_ Hi]]]]]].
    assert (Ho1 : ordered (l ++ [AddPrimaryKey s n i])) by (apply ordered_snoc; auto).
    destruct (IH _ Ho1 Hn) as [_ IH2]. now apply IH2.
Qed.

Lemma ordered_nil : ordered [].
Proof. intros n _. auto. Qed.

Lemma convert_schema l ts : NoDup (created l) -> convert_ddls_to_tables l = Ok ts -> ts = schema l.
Proof.
  intros Hn H. destruct (convert_from_schema l [] ordered_nil Hn) as [_ H2]. now destruct (H2 ts H).
Qed.

Lemma convert_readable l : NoDup (created l) -> readable l = true -> convert_ddls_to_tables l = Ok (schema l).
Proof.
  intros Hn H. destruct (convert_from_schema l [] ordered_nil Hn) as [H1 _]. now destruct (H1 H).
Qed.
