(** The order of the columns of a MySQL table converges. *)
From Coq Require Import String Ascii List ZArith Bool Lia Permutation.
From Verif Require Import GoStr GoStrFacts Ast Generator SpecPlan SpecColumns SpecOrder ProofPlan ProofSteps
  ProofTables ProofCompare ProofExact ProofObjects ProofColumns.
Import ListNotations.
Local Open Scope string_scope.
Local Open Scope list_scope.

(** ** Lists of names *)
Lemma mem_in x l : mem x l = true <-> In x l.
Proof.
  unfold mem. rewrite existsb_exists. split.
  - intros (y & Hy & E). apply String.eqb_eq in E. now subst.
  - intros H. exists x. split; [assumption|apply String.eqb_refl].
Qed.
Lemma mem_not_in x l : mem x l = false <-> ~ In x l.
Proof. rewrite <- mem_in. destruct (mem x l); intuition congruence. Qed.

Lemma take_out_in x y l : In y (take_out x l) <-> In y l /\ y <> x.
Proof.
  unfold take_out. rewrite filter_In. destruct (String.eqb_spec y x); simpl; intuition congruence.
Qed.
Lemma take_out_nodup x l : NoDup l -> NoDup (take_out x l).
Proof. apply NoDup_filter. Qed.
Lemma take_out_absent x l : ~ In x l -> take_out x l = l.
Proof.
  induction l as [|y l IH]; intros H; [reflexivity|]. simpl. destruct (String.eqb_spec y x) as [->|_]; simpl.
  - exfalso. apply H. now left.
  - f_equal. apply IH. intros Hx. apply H. now right.
Qed.
Lemma take_out_app x a b : take_out x (a ++ b) = take_out x a ++ take_out x b.
Proof. apply filter_app. Qed.
Lemma take_out_here x a b : ~ In x a -> ~ In x b -> take_out x (a ++ x :: b) = a ++ b.
Proof.
  intros Ha Hb. rewrite take_out_app. cbn [take_out filter]. rewrite String.eqb_refl. cbn [negb].
  fold (take_out x b). now rewrite !take_out_absent.
Qed.

Lemma put_after_split p x l : In p l -> exists a b, l = a ++ p :: b /\ put_after p x l = Some (a ++ p :: x :: b).
Proof.
  induction l as [|y l IH]; intros H; [destruct H|]. cbn [put_after]. destruct (String.eqb_spec y p) as [->|N].
  - exists [], l. auto.
  - destruct H as [H|H]; [congruence|]. destruct (IH H) as (a & b & -> & E). rewrite E. exists (y :: a), b. auto.
Qed.

Lemma put_after_app p x a b : ~ In p a -> put_after p x (a ++ p :: b) = Some (a ++ p :: x :: b).
Proof.
  induction a as [|y a IH]; intros H; cbn [app put_after].
  - now rewrite String.eqb_refl.
  - destruct (String.eqb_spec y p) as [->|_]; [exfalso; apply H; now left|].
    rewrite IH; [reflexivity|]. intros Hp. apply H. now right.
Qed.

(** Where a column goes that has to stand right after [prev]. *)
Definition place (prev : option string) (x : string) (l : list string) : option (list string) :=
  put x (pos_of prev) l.

Lemma place_spec prev x l : (forall p, prev = Some p -> In p l) ->
  exists a b, place prev x l = Some (a ++ x :: b) /\ l = a ++ b /\
    match prev with None => a = [] | Some p => exists a', a = a' ++ [p] end.
Proof.
  intros H. destruct prev as [p|]; unfold place; simpl.
  - destruct (put_after_split p x l (H p eq_refl)) as (a & b & -> & E). exists (a ++ [p]), b.
    rewrite E. rewrite <- !app_assoc. simpl. eauto.
  - exists [], l. auto.
Qed.

(** ** One turn of the loop over the desired columns, on names *)
Definition turn (C : list string) (mv : string -> bool) (prev : option string) (x : string) (l : list string)
  : option (list string) :=
  if mem x C then if mv x then place prev x (take_out x l) else Some l
  else place prev x l.

Fixpoint turns (C : list string) (mv : string -> bool) (prev : option string) (D : list string) (l : list string)
  : option (list string) :=
  match D with
  | [] => Some l
  | x :: D' => match turn C mv prev x l with
               | Some l' => turns C mv (Some x) D' l'
               | None => None
               end
  end.

(** [l] holds the current columns and the first desired ones. *)
Definition holds (C done : list string) (l : list string) : Prop :=
  NoDup l /\ forall y, In y l <-> In y C \/ In y done.

Lemma turn_holds C mv prev x done l :
  holds C done l -> ~ In x done -> (forall p, prev = Some p -> In p done) ->
  exists l', turn C mv prev x l = Some l' /\ holds C (done ++ [x]) l'.
Proof.
  intros [Hn Hl] Hx Hp. unfold turn. destruct (mem x C) eqn:Ec.
  - apply mem_in in Ec. destruct (mv x).
    + destruct (place_spec prev x (take_out x l)) as (a & b & E & El & _).
      { intros p Hq. apply take_out_in. split; [apply Hl; right; now apply Hp|]. intros ->. apply Hx. now apply Hp. }
      exists (a ++ x :: b). split; [exact E|]. assert (Hto := take_out_nodup x l Hn). rewrite El in Hto. split.
      * apply NoDup_Add with (a := x) (l := a ++ b); [apply Add_app|]. split; [exact Hto|].
        rewrite <- El, take_out_in. tauto.
      * intros y. rewrite in_app_iff. simpl. rewrite in_app_iff. simpl.
        assert (Hy : In y a \/ In y b <-> In y l /\ y <> x) by (rewrite <- in_app_iff, <- El; apply take_out_in).
        specialize (Hl y). destruct (string_dec y x) as [->|Ny]; intuition congruence.
    + exists l. split; [reflexivity|]. split; [assumption|]. intros y. rewrite Hl, in_app_iff. simpl. intuition congruence.
  - apply mem_not_in in Ec. destruct (place_spec prev x l) as (a & b & E & El & _).
    { intros p Hq. apply Hl. right. now apply Hp. }
    exists (a ++ x :: b). split; [exact E|]. rewrite El in Hn. split.
    + apply NoDup_Add with (a := x) (l := a ++ b); [apply Add_app|]. split; [exact Hn|]. rewrite <- El, Hl. tauto.
    + intros y. rewrite in_app_iff. simpl. rewrite in_app_iff. simpl.
      assert (Hy : In y a \/ In y b <-> In y l) by (rewrite <- in_app_iff, <- El; reflexivity).
      specialize (Hl y). intuition congruence.
Qed.

Lemma turns_hold C mv D : forall prev done l,
  holds C done l -> NoDup (done ++ D) -> (forall p, prev = Some p -> In p done) ->
  exists l', turns C mv prev D l = Some l' /\ holds C (done ++ D) l'.
Proof.
  induction D as [|x D IH]; intros prev done l Hl Hn Hp; cbn [turns].
  - exists l. rewrite app_nil_r. auto.
  - assert (Hx : ~ In x done).
    { intros Hx. apply NoDup_remove_2 in Hn. apply Hn. apply in_or_app. now left. }
    destruct (turn_holds C mv prev x done l Hl Hx Hp) as (l' & -> & Hl').
    destruct (IH (Some x) (done ++ [x]) l') as (l'' & E & H).
    + exact Hl'.
    + now rewrite <- app_assoc.
    + intros p [= ->]. apply in_or_app. right. now left.
    + exists l''. rewrite <- app_assoc in H. auto.
Qed.

(** *** Columns in relative order *)
Lemma filter_take_out f x l : filter f (take_out x l) = take_out x (filter f l).
Proof.
  unfold take_out. induction l as [|y l IH]; [reflexivity|]. simpl.
  destruct (negb (String.eqb y x)) eqn:E, (f y) eqn:F; simpl; rewrite ?E, ?F, ?IH; reflexivity.
Qed.

Lemma app_last_inj {A} (a b : list A) x y : a ++ [x] = b ++ [y] -> a = b /\ x = y.
Proof. apply app_inj_tail. Qed.

Lemma nodup_app_unique {A} (p : A) a b a' b' : NoDup (a ++ p :: b) -> a ++ p :: b = a' ++ p :: b' -> a = a' /\ b = b'.
Proof.
  revert a'; induction a as [|y a IH]; intros [|y' a'] Hn E; simpl in *.
  - injection E as E. auto.
  - injection E as E1 E2. subst. inversion Hn. subst. exfalso. apply H1. apply in_or_app. right. now left.
  - injection E as E1 E2. subst. inversion Hn. subst. exfalso. apply H1. apply in_or_app. right. now left.
  - injection E as E1 E2. subst. inversion Hn. subst. destruct (IH _ H2 E2). subst. auto.
Qed.

(** Placing [x] right after the last column of [done], seen through a filter that keeps both. *)
Lemma place_filter f prev done x rest l r :
  NoDup l -> f x = true -> (forall p, prev = Some p -> f p = true) ->
  prev = last (map Some done) None -> filter f l = done ++ rest -> place prev x l = Some r ->
  filter f r = done ++ x :: rest.
Proof.
  intros Hn Hx Hp Hprev Hf Hr.
  assert (Hin : forall p, prev = Some p -> In p l).
  { intros p Hq. subst prev.
    assert (Hd : In p done).
    { clear - Hq. induction done as [|y done IH]; [discriminate|]. destruct done; simpl in *; [injection Hq as ->; auto|right; apply IH; exact Hq]. }
    assert (H : In p (filter f l)) by (rewrite Hf; apply in_or_app; now left). now apply filter_In in H. }
  destruct (place_spec prev x l Hin) as (a & b & E & El & Ha). rewrite E in Hr. injection Hr as <-. subst l.
  rewrite filter_app in *. cbn [filter]. rewrite Hx.
  destruct prev as [p|].
  - destruct Ha as (a' & ->). rewrite filter_app in *. cbn [filter] in *. rewrite (Hp p eq_refl) in *.
    destruct (exists_last (l := done)) as (d' & q & Ed).
    { intros ->. discriminate. }
    assert (q = p).
    { rewrite Ed, map_app in Hprev. simpl in Hprev. rewrite last_last in Hprev. congruence. }
    subst q. rewrite Ed in Hf |- *. rewrite <- !app_assoc in Hf. simpl in Hf.
    assert (Hnd : NoDup (filter f a' ++ p :: filter f b)).
    { apply (NoDup_filter f) in Hn. rewrite !filter_app in Hn. cbn [filter] in Hn. rewrite (Hp p eq_refl), <- app_assoc in Hn. exact Hn. }
    apply nodup_app_unique in Hf as [-> ->]; [reflexivity|exact Hnd].
  - subst a. simpl in *. destruct done as [|y done]; [now rewrite Hf|].
    exfalso. clear - Hprev. revert y Hprev. induction done as [|z done IH]; intros y Hprev; [discriminate|].
    apply (IH z). exact Hprev.
Qed.

Lemma last_some_app (done : list string) x : last (map Some (done ++ [x])) None = Some x.
Proof. rewrite map_app. simpl. apply last_last. Qed.

Lemma turns_in_order C mv D0 : forall D done prev l l',
  NoDup (done ++ D) -> D0 = done ++ D -> holds C done l -> prev = last (map Some done) None ->
  filter (fun y => mem y D0) l = done ++ filter (fun y => mem y C) D ->
  turns C mv prev D l = Some l' -> filter (fun y => mem y D0) l' = D0.
Proof.
  induction D as [|x D IH]; intros done prev l l' Hn HD Hl Hprev Hf H; cbn [turns] in H.
  - injection H as <-. rewrite Hf, HD. reflexivity.
  - assert (Hxd : ~ In x done) by (intros Hx; apply NoDup_remove_2 in Hn; apply Hn; apply in_or_app; now left).
    assert (Hpd : forall p, prev = Some p -> In p done).
    { intros p Hq. rewrite Hprev in Hq. clear - Hq.
      induction done as [|y done IH]; [discriminate|]. destruct done; simpl in *; [injection Hq as ->; auto|right; apply IH; exact Hq]. }
    destruct (turn_holds C mv prev x done l Hl Hxd Hpd) as (l1 & E & Hl1). rewrite E in H.
    eapply (IH (done ++ [x]) (Some x) l1); [| |exact Hl1| | |exact H].
    + now rewrite <- app_assoc.
    + now rewrite HD, <- app_assoc.
    + now rewrite last_some_app.
    + assert (HxD : mem x D0 = true) by (apply mem_in; rewrite HD; apply in_or_app; right; now left).
      assert (HpD : forall p, prev = Some p -> mem p D0 = true).
      { intros p Hq. apply mem_in. rewrite HD. apply in_or_app. left. now apply Hpd. }
      destruct Hl as [Hnl Hl]. rewrite <- app_assoc. cbn [app]. unfold turn in E. cbn [filter] in Hf.
      destruct (mem x C) eqn:Ec.
      * destruct (mv x).
        -- eapply place_filter; [|exact HxD|exact HpD|exact Hprev| |exact E].
           ++ now apply take_out_nodup.
           ++ rewrite filter_take_out, Hf. apply take_out_here; [exact Hxd|].
              intros Hy. apply filter_In in Hy as [Hy _]. apply NoDup_remove_2 in Hn. apply Hn. apply in_or_app. now right.
        -- injection E as <-. exact Hf.
      * eapply place_filter; [exact Hnl|exact HxD|exact HpD|exact Hprev|exact Hf|exact E].
Qed.

(** *** A longer common prefix *)
Lemma turns_prefix C mv D P x : forall prev S l',
  NoDup (P ++ x :: S) ->
  (forall y, In y D -> In y S /\ mem y C = true) -> NoDup D ->
  (forall p, prev = Some p -> ~ In p D /\ (p = x \/ In p S)) -> prev <> None ->
  turns C mv prev D (P ++ x :: S) = Some l' ->
  exists S', l' = P ++ x :: S'.
Proof.
  induction D as [|y D IH]; intros prev S l' Hn HD HnD Hp Hp0 H; cbn [turns] in H.
  - injection H as <-. eauto.
  - unfold turn in H. destruct (HD y (or_introl eq_refl)) as [Hy Ec]. rewrite Ec in H.
    assert (HyP : ~ In y (P ++ [x])).
    { intros Hq. apply in_split in Hy as (s1 & s2 & ->). rewrite (app_assoc P [x] (s1 ++ y :: s2) : P ++ x :: s1 ++ y :: s2 = (P ++ [x]) ++ s1 ++ y :: s2) in Hn.
      rewrite app_assoc in Hn. apply NoDup_remove_2 in Hn. apply Hn. rewrite <- app_assoc. apply in_or_app. now left. }
    inversion HnD as [|? ? HyD HnD']; subst.
    destruct (mv y).
    + destruct prev as [p|]; [|congruence]. destruct (Hp p eq_refl) as [HpD Hp1].
      assert (Hto : take_out y (P ++ x :: S) = P ++ x :: take_out y S).
      { change (P ++ x :: S) with (P ++ [x] ++ S). rewrite app_assoc, take_out_app, (take_out_absent y (P ++ [x])) by exact HyP.
        now rewrite <- app_assoc. }
      rewrite Hto in H.
      assert (Hplace : exists S1, place (Some p) y (P ++ x :: take_out y S) = Some (P ++ x :: S1) /\ Permutation S1 S).
      { assert (HpP : ~ In p P).
        { destruct Hp1 as [->|Hp1].
          - intros Hq. apply NoDup_remove_2 in Hn. apply Hn. apply in_or_app. now left.
          - apply in_split in Hp1 as (s1 & s2 & ->). intros Hq. change (P ++ x :: s1 ++ p :: s2) with (P ++ (x :: s1) ++ p :: s2) in Hn.
            rewrite app_assoc in Hn. apply NoDup_remove_2 in Hn. apply Hn. rewrite <- app_assoc. apply in_or_app. now left. }
        assert (Hperm : Permutation (y :: take_out y S) S).
        { apply in_split in Hy as (s1 & s2 & ->). rewrite take_out_here.
          - apply Permutation_middle.
          - intros Hq. change (P ++ x :: s1 ++ y :: s2) with (P ++ (x :: s1) ++ y :: s2) in Hn. rewrite app_assoc in Hn.
            apply NoDup_remove_2 in Hn. apply Hn. rewrite <- app_assoc. apply in_or_app. right. apply in_or_app. left. now right.
          - intros Hq. change (P ++ x :: s1 ++ y :: s2) with (P ++ (x :: s1) ++ y :: s2) in Hn. rewrite app_assoc in Hn.
            apply NoDup_remove_2 in Hn. apply Hn. apply in_or_app. now right. }
        unfold place. simpl. destruct (string_dec p x) as [->|Npx].
        - rewrite put_after_app by exact HpP. exists (y :: take_out y S). auto.
        - destruct Hp1 as [->|Hp1]; [congruence|].
          assert (HpS : In p (take_out y S)) by (apply take_out_in; split; [assumption|]; intros ->; apply HpD; now left).
          apply in_split in HpS as (s1 & s2 & Es).
          assert (Hs1 : ~ In p s1).
          { assert (HnS : NoDup (take_out y S)).
            { apply take_out_nodup. apply NoDup_remove_1 in Hn. clear - Hn. induction P; [exact Hn|]. inversion Hn. auto. }
            rewrite Es in HnS. apply NoDup_remove_2 in HnS. intros Hq. apply HnS. apply in_or_app. now left. }
          rewrite Es. change (P ++ x :: s1 ++ p :: s2) with (P ++ (x :: s1) ++ p :: s2). rewrite app_assoc, put_after_app.
          + exists (s1 ++ p :: y :: s2). split; [now rewrite <- app_assoc|]. rewrite <- Hperm, Es.
            change (p :: y :: s2) with ([p] ++ y :: s2). rewrite app_assoc, <- Permutation_middle, <- app_assoc. reflexivity.
          + intros Hq. apply in_app_or in Hq as [Hq|[Hq|Hq]]; congruence || tauto. }
      destruct Hplace as (S1 & E & HS1). rewrite E in H.
      eapply (IH (Some y) S1); [| | | | |exact H].
      * apply (Permutation_NoDup (l := P ++ x :: S)); [|exact Hn]. apply Permutation_app_head. now constructor.
      * intros z Hz. destruct (HD z (or_intror Hz)) as [Hz1 Hz2]. split; [|exact Hz2]. eapply Permutation_in; [symmetry; exact HS1|exact Hz1].
      * exact HnD'.
      * intros q [= <-]. split; [exact HyD|]. right. eapply Permutation_in; [symmetry; exact HS1|exact Hy].
      * discriminate.
    + eapply (IH (Some y) S); [exact Hn| | | | |exact H].
      * intros z Hz. apply HD. now right.
      * exact HnD'.
      * intros q [= <-]. auto.
      * discriminate.
Qed.

Lemma last_of (P : list string) p : last (map Some P) None = Some p -> In p P.
Proof.
  induction P as [|y P IH]; [discriminate|]. intros H. destruct P; simpl in *; [injection H as ->; auto|right; apply IH; exact H].
Qed.

Lemma place_end P x R : NoDup P -> ~ In x P -> place (last (map Some P) None) x (P ++ R) = Some (P ++ x :: R).
Proof.
  intros Hn Hx. destruct (rev P) as [|p q] eqn:E.
  - assert (P = []) as -> by (rewrite <- (rev_involutive P), E; reflexivity). reflexivity.
  - assert (P = rev q ++ [p]) as -> by (rewrite <- (rev_involutive P), E; reflexivity).
    rewrite last_some_app. unfold place. simpl. rewrite <- !app_assoc. simpl. apply put_after_app.
    apply NoDup_remove_2 in Hn. now rewrite app_nil_r in Hn.
Qed.

Lemma turns_app C mv A : forall B prev l, prev = last (map Some []) None \/ prev <> None ->
  turns C mv prev (A ++ B) l =
  match turns C mv prev A l with
  | Some l' => turns C mv (match A with [] => prev | _ => last (map Some A) None end) B l'
  | None => None
  end.
Proof.
  induction A as [|x A IH]; intros B prev l _; [reflexivity|]. cbn [app turns].
  destruct (turn C mv prev x l); [|reflexivity]. rewrite IH by (right; discriminate). destruct (turns _ _ _ A _); [|reflexivity].
  destruct A; reflexivity.
Qed.

Lemma turns_still C mv D : forall prev l, (forall y, In y D -> mem y C = true /\ mv y = false) -> turns C mv prev D l = Some l.
Proof.
  induction D as [|x D IH]; intros prev l H; [reflexivity|]. cbn [turns]. unfold turn.
  destruct (H x (or_introl eq_refl)) as [-> ->]. apply IH. intros; apply H; now right.
Qed.

(** Same columns: the common prefix with the desired order grows. *)
Lemma turns_grow mv P x D' R l' :
  NoDup (P ++ x :: D') -> Permutation (P ++ R) (P ++ x :: D') ->
  (forall y i j, nth_error (P ++ x :: D') i = Some y -> nth_error (P ++ R) j = Some y -> (mv y = true <-> i < j)) ->
  turns (P ++ R) mv None (P ++ x :: D') (P ++ R) = Some l' -> exists S, l' = P ++ x :: S.
Proof.
  intros Hn Hp Hmv H. assert (HnC : NoDup (P ++ R)) by (eapply Permutation_NoDup; [symmetry; exact Hp|exact Hn]).
  assert (HR : Permutation R (x :: D')) by (now apply Permutation_app_inv_l in Hp).
  rewrite turns_app in H by auto. rewrite turns_still in H.
  2:{ intros y Hy. split; [apply mem_in, in_or_app; now left|]. destruct (mv y) eqn:E; [|reflexivity].
      apply In_nth_error in Hy as (i & Hi). assert (Hlt : i < length P) by (apply nth_error_Some; congruence).
      assert (i < i); [|lia]. apply (Hmv y i i); [rewrite nth_error_app1; assumption|rewrite nth_error_app1; assumption|exact E]. }
  assert (Hprev : (match P with [] => None | _ => last (map Some P) None end) = last (map Some P) None) by (destruct P; reflexivity).
  rewrite Hprev in H. clear Hprev. cbn [turns] in H.
  assert (HnP : NoDup P) by (clear - Hn; induction P; [constructor|inversion Hn; subst; constructor; [intros Hq; apply H1; apply in_or_app; now left|auto]]).
  assert (HxP : ~ In x P) by (intros Hq; apply NoDup_remove_2 in Hn; apply Hn; apply in_or_app; now left).
  assert (HxR : In x R) by (eapply Permutation_in; [symmetry; exact HR|now left]).
  assert (HnR : NoDup R) by (clear - HnC; induction P; [exact HnC|inversion HnC; auto]).
  assert (Hx : exists R', turn (P ++ R) mv (last (map Some P) None) x (P ++ R) = Some (P ++ x :: R') /\ Permutation R' D').
  { unfold turn. assert (mem x (P ++ R) = true) as -> by (apply mem_in, in_or_app; now right).
    destruct (mv x) eqn:Em.
    - rewrite take_out_app, (take_out_absent x P) by exact HxP. rewrite place_end by assumption.
      exists (take_out x R). split; [reflexivity|]. apply in_split in HxR as (a & b & ->). rewrite take_out_here.
      + apply (Permutation_cons_inv (a := x)). rewrite <- HR. apply Permutation_middle.
      + apply NoDup_remove_2 in HnR. intros Hq. apply HnR, in_or_app. now left.
      + apply NoDup_remove_2 in HnR. intros Hq. apply HnR, in_or_app. now right.
    - destruct R as [|y R]; [destruct HxR|]. destruct (string_dec y x) as [->|Ny].
      + exists R. split; [reflexivity|]. now apply Permutation_cons_inv in HR.
      + exfalso. destruct HxR as [HxR|HxR]; [congruence|]. apply In_nth_error in HxR as (j & Hj).
        assert (mv x = true); [|congruence]. apply (Hmv x (length P) (length P + S j)).
        * rewrite nth_error_app2, Nat.sub_diag by lia. reflexivity.
        * rewrite nth_error_app2 by lia. replace (length P + S j - length P) with (S j) by lia. exact Hj.
        * lia. }
  destruct Hx as (R' & E & HR'). rewrite E in H.
  eapply turns_prefix; [| | | | |exact H].
  - eapply Permutation_NoDup; [|exact Hn]. apply Permutation_app_head. constructor. now symmetry.
  - intros y Hy. split; [eapply Permutation_in; [symmetry; exact HR'|exact Hy]|]. apply mem_in.
    eapply Permutation_in; [symmetry; exact Hp|]. apply in_or_app. right. now right.
  - apply (NoDup_remove_1 P) in Hn. clear - Hn. induction P; [exact Hn|]. inversion Hn; auto.
  - intros p [= <-]. split; [|now left]. intros Hq. apply NoDup_remove_2 in Hn. apply Hn, in_or_app. now right.
  - discriminate.
Qed.

(** ** The plan on names *)
Definition shifts (ct t : table) (x : string) : bool :=
  match find_column (t_columns ct) x, find_column (t_columns t) x with
  | Some cc, Some dc => change_order ct t cc dc
  | _, _ => false
  end.

Lemma order_after_app n a b l : order_after n (a ++ b) l =
  match order_after n a l with Some l' => order_after n b l' | None => None end.
Proof. revert l; induction a as [|s a IH]; intros l; [reflexivity|]. simpl. destruct (reorder _ _ _); auto. Qed.

Lemma order_then n a b l l' : order_after n a l = Some l' -> order_after n (a ++ b) l = order_after n b l'.
Proof. intros H. now rewrite order_after_app, H. Qed.

Lemma order_after_part n out : forall l, order_after n out l = order_after n (table_part n out) l.
Proof.
  induction out as [|s out IH]; intros l; [reflexivity|]. unfold table_part in *. cbn [filter order_after].
  assert (Hs : is_some_eqb (eff_table (s_eff s)) n = false -> reorder n (s_eff s) l = Some l).
  { destruct (s_eff s); simpl; try reflexivity; intros ->; reflexivity. }
  destruct (is_some_eqb _ _).
  - cbn [order_after]. destruct (reorder _ _ _); auto.
  - now rewrite Hs.
Qed.

(** Statements that do not touch the order. *)
Lemma order_silent n k o : all k o -> (forall e, k e = true -> forall l, reorder n e l = Some l) -> forall l, order_after n o l = Some l.
Proof.
  intros H Hk. induction H as [|s o Hs _ IH]; intros l; [reflexivity|]. simpl. rewrite (Hk _ Hs l). apply IH.
Qed.

Lemma same_name_change n old c l : In old l -> c_name c = old ->
  reorder n (EffChangeColumn n old c PosNone) l = Some l.
Proof.
  intros H E. cbn [reorder]. rewrite String.eqb_refl, (proj2 (mem_in old l) H), E, String.eqb_refl. cbn [negb orb andb].
  f_equal. rewrite <- (map_id l) at 2. apply map_ext. intros y. destruct (String.eqb_spec y old); congruence.
Qed.

Lemma filter_filter_and {A} (f g : A -> bool) l : filter f (filter g l) = filter (fun x => g x && f x) l.
Proof. induction l as [|x l IH]; [reflexivity|]. simpl. destruct (g x); simpl; rewrite IH; reflexivity. Qed.

Section Table.
Variables (ct t : table).
Hypothesis Hname : t_name ct = t_name t.
Let n := t_name t.
Let C := names ct.

Lemma column_turn prev c a l : ddls_column Mysql ct t prev c = Ok a ->
  find_column (t_columns t) (c_name c) = Some c ->
  (forall y, In y C -> In y l) -> (~ In (c_name c) C -> ~ In (c_name c) l) ->
  order_after n a l = turn C (shifts ct t) prev (c_name c) l.
Proof.
  intros H Hc HC Hl. unfold ddls_column in H. unfold turn, shifts. rewrite Hc.
  destruct (find_column (t_columns ct) (c_name c)) as [cc|] eqn:Ef.
  - assert (Hcc : c_name cc = c_name c /\ In (c_name c) C).
    { apply find_some in Ef as [Hi Ef]. apply String.eqb_eq in Ef. split; [exact Ef|]. rewrite <- Ef. now apply in_map. }
    destruct Hcc as [Hcc Hin]. rewrite (proj2 (mem_in _ _) Hin). fold (first_version cc c) in H.
    destruct (first_fields cc c) as (F1 & F2 & _).
    assert (Ho : change_order ct t cc (first_version cc c) = change_order ct t cc c) by (unfold change_order; now rewrite F2).
    unfold ddls_column_mysql in H. cbv zeta in H. rewrite Ho in H. bind_inv H. injection H as <-.
    rewrite order_after_app.
    assert (Ha : order_after n a0 l = (if change_order ct t cc c then place prev (c_name c) (take_out (c_name c) l) else Some l)).
    { destruct (change_order ct t cc c) eqn:Ec.
      - rewrite orb_true_r in E. bind_inv E. injection E as <-. cbn [order_after s_eff reorder]. fold n.
        rewrite String.eqb_refl, Hcc, (proj2 (mem_in _ _) (HC _ Hin)), F1, String.eqb_refl. cbn [negb orb andb].
        unfold place. destruct prev; simpl; [|reflexivity]. destruct (put_after _ _ _); reflexivity.
      - destruct (_ || false).
        + bind_inv E. injection E as <-. cbn [order_after s_eff]. fold n. rewrite Hcc, same_name_change; auto.
        + injection E as <-. reflexivity. }
    rewrite Ha. match goal with |- _ = ?x => destruct x as [l1|]; [|reflexivity] end.
    match goal with |- order_after _ (if ?b then _ else _) _ = _ => destruct b; reflexivity end.
  - assert (Hin : ~ In (c_name c) C).
    { unfold C, names. intros Hin. apply in_map_iff in Hin as (cc & E & Hcc). apply (find_none _ _ Ef) in Hcc. cbv beta in Hcc.
      apply String.eqb_neq in Hcc. congruence. }
    rewrite (proj2 (mem_not_in _ _) Hin). unfold ddls_new_column in H. bind_inv H. injection H as <-.
    cbn [order_after s_eff reorder]. fold n. rewrite String.eqb_refl. cbn [c_name set_autoinc]. rewrite (proj2 (mem_not_in _ _) (Hl Hin)).
    unfold place. destruct (put _ _ _); reflexivity.
Qed.

Lemma columns_turns : forall l prev done o L,
  ddls_columns Mysql ct t prev l = Ok o -> NoDup (done ++ map c_name l) ->
  (forall c, In c l -> find_column (t_columns t) (c_name c) = Some c) ->
  holds C done L -> (forall p, prev = Some p -> In p done) ->
  order_after n o L = turns C (shifts ct t) prev (map c_name l) L.
Proof.
  induction l as [|c l IH]; intros prev done o L H Hn Hf HL Hp; cbn [ddls_columns] in H.
  - injection H as <-. reflexivity.
  - bind_inv H. bind_inv H. injection H as <-. rewrite order_after_app. cbn [map turns].
    assert (Hc : ~ In (c_name c) done).
    { intros Hq. apply NoDup_remove_2 in Hn. apply Hn, in_or_app. now left. }
    rewrite (column_turn prev c a L E).
    + destruct (turn_holds C (shifts ct t) prev (c_name c) done L HL Hc Hp) as (L1 & E1 & HL1). rewrite E1.
      eapply (IH (Some (c_name c)) (done ++ [c_name c])); [exact E0| | |exact HL1|].
      * now rewrite <- app_assoc.
      * intros; apply Hf; now right.
      * intros p [= <-]. apply in_or_app. right. now left.
    + apply Hf. now left.
    + intros y Hy. apply HL. now left.
    + intros HnC Hq. apply HL in Hq. tauto.
Qed.

Lemma remove_autoinc_order o L : ddls_remove_autoinc Mysql ct t = Ok o -> (forall y, In y C -> In y L) -> order_after n o L = Some L.
Proof.
  unfold ddls_remove_autoinc. intros H HL. assert (Hin : forall c, In c (t_columns ct) -> In (c_name c) L).
  { intros c Hc. apply HL. now apply in_map. }
  clear HL. revert o H Hin. induction (t_columns ct) as [|c l IH]; intros o H Hin; cbn [concat_map] in H.
  - injection H as <-. reflexivity.
  - bind_inv H. bind_inv H. injection H as <-. rewrite order_after_app.
    assert (order_after n a L = Some L) as ->.
    { destruct (_ && _); [|injection E as <-; reflexivity]. bind_inv E. injection E as <-. cbn [order_after s_eff]. rewrite Hname. fold n.
      rewrite same_name_change; [reflexivity|apply Hin; now left|reflexivity]. }
    eapply IH; [reflexivity|]. intros; apply Hin; now right.
Qed.

Lemma add_autoinc_order o L : ddls_add_autoinc Mysql ct t = Ok o -> (forall y, In y (names t) -> In y L) -> order_after n o L = Some L.
Proof.
  unfold ddls_add_autoinc. intros H HL. assert (Hin : forall c, In c (t_columns t) -> In (c_name c) L).
  { intros c Hc. apply HL. now apply in_map. }
  clear HL. revert o H Hin. induction (t_columns t) as [|c l IH]; intros o H Hin; cbn [concat_map] in H.
  - injection H as <-. reflexivity.
  - bind_inv H. bind_inv H. injection H as <-. rewrite order_after_app.
    assert (order_after n a L = Some L) as ->.
    { destruct (_ && _); [|injection E as <-; reflexivity]. bind_inv E. injection E as <-. cbn [order_after s_eff]. rewrite Hname. fold n.
      rewrite same_name_change; [reflexivity|apply Hin; now left|reflexivity]. }
    eapply IH; [reflexivity|]. intros; apply Hin; now right.
Qed.

Lemma absent_column_order x L : In x L -> order_after n (absent_column Mysql ct x) L = Some (take_out x L).
Proof.
  intros H. unfold absent_column. cbn [app order_after s_eff reorder]. rewrite Hname. fold n.
  now rewrite String.eqb_refl, (proj2 (mem_in x L) H).
Qed.

Lemma cleanup_order dt : column_names (t_columns dt) = names t -> NoDup C ->
  forall L, holds C (names t) L -> order_after n (cleanup_columns Mysql ct dt) L = Some (filter (fun y => mem y (names t)) L).
Proof.
  intros Hd HnC L [HnL HL]. unfold cleanup_columns. rewrite Hd.
  assert (Hgo : forall l L', NoDup (map c_name l) -> (forall c, In c l -> In (c_name c) L') -> NoDup L' ->
    order_after n (flat_map (fun c => if contains_string (names t) (c_name c) then [] else absent_column Mysql ct (c_name c)) l) L' =
    Some (filter (fun y => mem y (names t) || negb (mem y (map c_name l))) L')).
  { induction l as [|c l IH]; intros L' Hn Hin HnL'.
    - simpl. f_equal. symmetry. induction L' as [|y L' IH]; [reflexivity|]. simpl. rewrite orb_true_r. f_equal. apply IH.
      + intros ? [].
      + now inversion HnL'.
    - cbn [flat_map map] in *. inversion Hn as [|? ? Hc Hn']; subst. rewrite order_after_app, contains_string_mem.
      destruct (mem (c_name c) (names t)) eqn:Em.
      + cbn [order_after]. rewrite IH; auto; [|intros; apply Hin; now right]. f_equal. apply filter_ext. intros y.
        unfold mem at 4. cbn [existsb]. fold (mem y (map c_name l)). destruct (String.eqb_spec y (c_name c)) as [->|_]; [|reflexivity].
        rewrite Em. reflexivity.
      + rewrite absent_column_order by (apply Hin; now left). rewrite IH; auto.
        * f_equal. unfold take_out. rewrite filter_filter_and. apply filter_ext. intros y. unfold mem at 4. cbn [existsb]. fold (mem y (map c_name l)).
          destruct (String.eqb_spec y (c_name c)) as [->|_]; cbn [negb andb orb]; [now rewrite Em|].
          now rewrite andb_true_r || reflexivity.
        * intros c' Hc'. apply take_out_in. split; [apply Hin; now right|]. intros E. apply Hc. rewrite <- E. now apply in_map.
        * now apply take_out_nodup. }
  rewrite (Hgo (t_columns ct) L); auto.
  - f_equal. apply filter_ext_in. intros y Hy. destruct (mem y (names t)) eqn:Em; [reflexivity|]. simpl.
    apply mem_not_in in Em. apply HL in Hy as [Hy|Hy]; [|tauto]. fold (names ct). fold C. now rewrite (proj2 (mem_in _ _) Hy).
  - intros c Hc. apply HL. left. now apply in_map.
Qed.
End Table.

Lemma find_column_unique l c : NoDup (map c_name l) -> In c l -> find_column l (c_name c) = Some c.
Proof.
  intros Hn Hc. unfold find_column. induction l as [|x l IH]; [destruct Hc|]. simpl in *. inversion Hn as [|? ? Hx Hn']; subst.
  destruct Hc as [->|Hc]; [now rewrite String.eqb_refl|].
  destruct (String.eqb_spec (c_name x) (c_name c)) as [E|_]; [|auto]. exfalso. apply Hx. rewrite E. now apply in_map.
Qed.

Section Plan.
Variables (desired current : list ddl) (out : list stmt).
Hypothesis Hnd : NoDup (created desired).
Hypothesis Hnc : NoDup (created current).
Hypothesis Hplan : plan Mysql desired current = Ok out.
Variables (t ct : table).
Hypothesis Ht : In t (tables_in desired).
Hypothesis Hct : In ct (schema current).
Hypothesis Hname : t_name ct = t_name t.
Hypothesis Hdt : NoDup (names t).
Hypothesis Hdc : NoDup (names ct).
Let n := t_name t.
Let C := names ct.
Let D := names t.

Lemma plan_order : exists l, turns C (shifts ct t) None D C = Some l /\ holds C D l /\
  order_after n out C = Some (filter (fun y => mem y D) l).
Proof.
  destruct (kept_sections Mysql desired current out Hnd Hnc Hplan t ct Ht Hct Hname)
    as (cols & rem & pk & idx & ainc & fks & cix & H1 & H2 & H3 & H4 & H5 & H6 & H7 & Hp).
  assert (H0 : holds C [] C) by (split; [exact Hdc|intros y; simpl; tauto]).
  destruct (turns_hold C (shifts ct t) D None [] C) as (l & El & Hl).
  { exact H0. } { exact Hdt. } { discriminate. }
  exists l. split; [exact El|]. split; [exact Hl|]. simpl in Hl.
  rewrite order_after_part. unfold n. rewrite Hp.
  assert (E1 : order_after (t_name t) cols C = Some l).
  { rewrite <- El. eapply (columns_turns ct t (t_columns t) None []); [exact H1|exact Hdt| |exact H0|discriminate].
    intros c Hc. apply find_column_unique; [exact Hdt|exact Hc]. }
  rewrite (order_then _ _ _ _ _ E1). destruct Hl as [Hnl Hl].
  rewrite (order_then _ rem _ l l) by (apply (remove_autoinc_order ct t Hname rem l H2); intros y Hy; apply Hl; now left).
  rewrite (order_then _ pk _ l l) by (apply (order_silent (t_name t) k_primary); [eapply kind_primary_key; eauto|kinds]).
  rewrite (order_then _ idx _ l l) by (apply (order_silent (t_name t) k_index);
    [eapply all_concat_map; [|exact H4]; intros; eapply kind_ix; eauto|kinds]).
  rewrite (order_then _ ainc _ l l) by (apply (add_autoinc_order ct t Hname ainc l H5); intros y Hy; apply Hl; now right).
  rewrite (order_then _ fks _ l l) by (apply (order_silent (t_name t) k_fk);
    [eapply all_concat_map; [|exact H6]; intros; eapply kind_fk; eauto|kinds]).
  rewrite (order_then _ (flat_map _ _) _ l l) by (apply (order_silent (t_name t) k_standalone); [apply kind_standalone|kinds]).
  rewrite (order_then _ (cleanup_fks _ _ _) _ l l) by (apply (order_silent (t_name t) k_fk); [apply kind_cleanup_fks|kinds]).
  rewrite (order_then _ cix _ l l) by (apply (order_silent (t_name t) k_index_or_primary); [eapply kind_cleanup_indexes; eauto|kinds]).
  erewrite order_then.
  2:{ apply (cleanup_order ct t Hname (full_table desired t)); [apply full_column_names|exact Hdc|split; assumption]. }
  apply (order_silent (t_name t) k_policy). { apply kind_cleanup_policies. } kinds.
Qed.

(** One run has the right columns... *)
Theorem run_columns : exists l, order_after n out C = Some l /\ Permutation l D.
Proof.
  destruct plan_order as (l & _ & [Hn Hl] & E). exists (filter (fun y => mem y D) l). split; [exact E|].
  apply NoDup_Permutation; [now apply NoDup_filter|exact Hdt|]. intros y. rewrite filter_In, mem_in, Hl. tauto.
Qed.

(** ... and the right order if the kept ones are in relative order. *)
Theorem run_in_order : same_relative_order C D -> order_after n out C = Some D.
Proof.
  intros Ho. destruct plan_order as (l & El & _ & E). rewrite E. f_equal.
  eapply (turns_in_order C (shifts ct t) D D [] None C l); auto.
  split; [exact Hdc|intros y; simpl; tauto].
Qed.

(** Same columns: the common prefix grows. *)
Theorem run_grows P x D' R : numbered t -> numbered ct -> D = P ++ x :: D' -> C = P ++ R -> Permutation C D ->
  exists S, order_after n out C = Some (P ++ x :: S) /\ Permutation (P ++ x :: S) D.
Proof.
  intros Hnt Hnct ED EC Hp. destruct plan_order as (l & El & [Hnl Hl] & E).
  assert (Hall : filter (fun y => mem y D) l = l).
  { rewrite <- (filter_ext_in (fun _ => true)).
    - clear. induction l as [|y l IH]; [reflexivity|]. simpl. now rewrite IH.
    - intros y Hy. symmetry. apply mem_in. apply Hl in Hy as [Hy|Hy]; [|exact Hy]. eapply Permutation_in; eauto. }
  rewrite Hall in E.
  assert (Hlen : length (t_columns ct) = length (t_columns t)).
  { apply Permutation_length in Hp. unfold C, D, names in Hp. rewrite !map_length in Hp. exact Hp. }
  rewrite EC, ED in El. edestruct (turns_grow (shifts ct t) P x D' R l) as (S & ->).
  - rewrite <- ED. exact Hdt.
  - rewrite <- EC, <- ED. exact Hp.
  - intros y i j Hi Hj. rewrite <- ED in Hi. rewrite <- EC in Hj.
    unfold D, names in Hi. unfold C, names in Hj. rewrite nth_error_map in Hi, Hj.
    destruct (nth_error (t_columns t) i) as [c|] eqn:Ei; [|discriminate].
    destruct (nth_error (t_columns ct) j) as [cc|] eqn:Ej; [|discriminate]. simpl in Hi, Hj. injection Hi as <-. injection Hj as Hj.
    unfold shifts. rewrite (find_column_unique (t_columns t) c Hdt (nth_error_In _ _ Ei)).
    rewrite <- Hj, (find_column_unique (t_columns ct) cc Hdc (nth_error_In _ _ Ej)).
    unfold change_order. rewrite (Hnt i c Ei), (Hnct j cc Ej), Hlen, andb_true_iff, !Z.ltb_lt. lia.
  - exact El.
  - exists S. split; [exact E|]. apply NoDup_Permutation; [exact Hnl|exact Hdt|]. intros y. rewrite Hl. split; [|tauto].
    intros [Hy|Hy]; [|exact Hy]. eapply Permutation_in; eauto.
Qed.
End Plan.

(** ** Repeated runs *)
Section Runs.
Variables (desired : list ddl) (t : table).
Variables (current : nat -> list ddl) (out : nat -> list stmt) (ct : nat -> table).
Hypothesis Hnd : NoDup (created desired).
Hypothesis Ht : In t (tables_in desired).
Hypothesis Hdt : NoDup (names t).
Hypothesis Hnt : numbered t.
Hypothesis Hruns : forall k, NoDup (created (current k)) /\ In (ct k) (schema (current k)) /\ t_name (ct k) = t_name t /\
  NoDup (names (ct k)) /\ numbered (ct k) /\ plan Mysql desired (current k) = Ok (out k) /\
  order_after (t_name t) (out k) (names (ct k)) = Some (names (ct (S k))).

Lemma runs_permutation k : Permutation (names (ct (S k))) (names t).
Proof.
  destruct (Hruns k) as (H1 & H2 & H3 & H4 & H5 & H6 & H7).
  destruct (run_columns desired (current k) (out k) Hnd H1 H6 t (ct k) Ht H2 H3 Hdt H4) as (l & E & Hp).
  rewrite E in H7. injection H7 as <-. exact Hp.
Qed.

Lemma runs_prefix k : k <= length (names t) -> exists R, names (ct (S k)) = firstn k (names t) ++ R.
Proof.
  induction k as [|k IH]; intros Hk; [simpl; eauto|].
  destruct (IH ltac:(lia)) as (R & ER).
  destruct (Hruns (S k)) as (H1 & H2 & H3 & H4 & H5 & H6 & H7).
  destruct (nth_error (names t) k) as [x|] eqn:Ex; [|apply nth_error_None in Ex; lia].
  assert (Efirst : firstn (S k) (names t) = firstn k (names t) ++ [x]).
  { clear - Ex. revert k Ex. induction (names t) as [|y l IH]; intros [|k] Ex; try discriminate; simpl in *.
    - injection Ex as ->. reflexivity.
    - f_equal. now apply IH. }
  edestruct (run_grows desired (current (S k)) (out (S k)) Hnd H1 H6 t (ct (S k)) Ht H2 H3 Hdt H4
    (firstn k (names t)) x (skipn (S k) (names t)) R) as (S' & E & _); auto.
  - rewrite <- (firstn_skipn (S k) (names t)) at 1. rewrite Efirst, <- app_assoc. reflexivity.
  - apply runs_permutation.
  - rewrite E in H7. injection H7 as H7. exists S'. rewrite <- H7, Efirst, <- app_assoc. reflexivity.
Qed.

Theorem runs_converge k : 1 <= k -> length (names t) <= k -> names (ct k) = names t.
Proof.
  intros H1 Hk. destruct k as [|k]; [lia|]. pose proof (runs_permutation k) as Hp.
  destruct (le_lt_dec (length (names t)) k) as [Hl|Hl].
  - (* every later run keeps the order *)
    assert (Hfull : forall j, length (names t) <= j -> names (ct (S j)) = names t).
    { intros j Hj. destruct (runs_prefix (length (names t)) (le_n _)) as (R & E). rewrite firstn_all in E.
      assert (E0 : names (ct (S (length (names t)))) = names t).
      { pose proof (runs_permutation (length (names t))) as Hq. rewrite E in Hq |- *. apply Permutation_length in Hq.
        rewrite app_length in Hq. destruct R; [apply app_nil_r|simpl in Hq; lia]. }
      clear E. induction Hj as [|j Hj IHj]; [exact E0|].
      destruct (Hruns (S j)) as (G1 & G2 & G3 & G4 & G5 & G6 & G7).
      rewrite (run_in_order desired (current (S j)) (out (S j)) Hnd G1 G6 t (ct (S j)) Ht G2 G3 Hdt G4) in G7.
      - injection G7 as G7. congruence.
      - rewrite IHj. reflexivity. }
    now apply Hfull.
  - assert (k = Nat.pred (length (names t))) as -> by lia.
    destruct (runs_prefix (Nat.pred (length (names t))) ltac:(lia)) as (R & E).
    rewrite E in *. destruct (names t) as [|y l0] eqn:Et; [simpl in *; lia|].
    set (l := y :: l0) in *. assert (Hlen : length R = 1).
    { apply Permutation_length in Hp. rewrite app_length, firstn_length in Hp. lia. }
    destruct R as [|z [|? ?]]; try discriminate. pose proof (firstn_skipn (Nat.pred (length l)) l) as Hs.
    rewrite <- Hs in Hp at 3. apply Permutation_app_inv_l in Hp. apply Permutation_length_1_inv in Hp.
    rewrite <- Hs at 3. now rewrite Hp.
Qed.
End Runs.

Theorem one_run desired current out t ct :
  NoDup (created desired) -> NoDup (created current) -> plan Mysql desired current = Ok out ->
  In t (tables_in desired) -> In ct (schema current) -> t_name ct = t_name t ->
  NoDup (names t) -> NoDup (names ct) ->
  exists l, order_after (t_name t) out (names ct) = Some l /\ Permutation l (names t) /\
            (same_relative_order (names ct) (names t) -> l = names t).
Proof.
  intros H1 H2 H3 H4 H5 H6 H7 H8.
  destruct (run_columns desired current out H1 H2 H3 t ct H4 H5 H6 H7 H8) as (l & E & Hp).
  exists l. split; [exact E|]. split; [exact Hp|]. intros Ho.
  pose proof (run_in_order desired current out H1 H2 H3 t ct H4 H5 H6 H7 H8 Ho) as E'. congruence.
Qed.
