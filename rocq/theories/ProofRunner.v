From Coq Require Import String Ascii List ZArith Bool Lia.
From Verif Require Import GoStr Ast Generator SchemaText Runner SpecRunner SpecText ProofText.
Import ListNotations.
Local Open Scope string_scope.
Local Open Scope list_scope.

Lemma filter_none {A} (f : A -> bool) l : Forall (fun x => f x = false) l -> filter f l = [].
Proof. induction 1; simpl; [reflexivity|]. now rewrite H. Qed.

Definition quiet (e : event) : Prop := touches_db e = false.
Definition silent (e : event) : Prop :=
  match e with QTableNames | QDumpTable _ | QViews | QTriggers => True | _ => False end.

Lemma silent_quiet e : silent e -> quiet e.
Proof. now destruct e. Qed.

Lemma dump_tables_silent w h names :
  Forall silent (fst (dump_tables w h names)).
Proof.
  revert h; induction names as [|n r IH]; intros h; simpl; [constructor|].
  destruct (w_dump_table w h n); simpl.
  - specialize (IH (h ++ [QDumpTable n])).
    destruct (dump_tables w (h ++ [QDumpTable n]) r). simpl in *. constructor; simpl; auto.
  - constructor; simpl; auto.
Qed.

Lemma dump_ddls_silent w h : Forall silent (fst (dump_ddls w h)).
Proof.
  unfold dump_ddls. destruct (w_table_names w h) as [names|]; [|repeat constructor].
  pose proof (dump_tables_silent w (h ++ [QTableNames]) names) as H.
  destruct (dump_tables w (h ++ [QTableNames]) names) as [t [tables|]]; simpl in *;
    [|constructor; simpl; auto].
  destruct (w_views w _); simpl.
  - destruct (w_triggers w _); simpl; (constructor; [exact I|]);
      rewrite !Forall_app; repeat split; auto; repeat constructor.
  - constructor; [exact I|]. rewrite Forall_app; split; auto; repeat constructor.
Qed.

Lemma silent_filter t : Forall silent t -> db_trace t = [].
Proof. intros H. apply filter_none. eapply Forall_impl; [|exact H]. intros a. apply silent_quiet. Qed.

Lemma silent_outputs t : Forall silent t -> outputs t = [].
Proof. unfold outputs. induction 1 as [|e t He Ht IH]; simpl; [reflexivity|]. rewrite IH. now destruct e. Qed.

Lemma silent_sent t : Forall silent t -> sent t = [].
Proof. unfold sent. induction 1 as [|e t He Ht IH]; simpl; [reflexivity|]. rewrite IH. now destruct e. Qed.

Lemma silent_exits t : Forall silent t -> exit_codes t = [].
Proof. unfold exit_codes. induction 1 as [|e t He Ht IH]; simpl; [reflexivity|]. rewrite IH. now destruct e. Qed.

Lemma silent_no_file t : Forall silent t -> forallb (fun e => negb (reads_file e)) t = true.
Proof. induction 1 as [|e t He Ht IH]; simpl; [reflexivity|]. rewrite IH. now destruct e. Qed.

Lemma outputs_app a b : outputs (a ++ b) = outputs a ++ outputs b.
Proof. apply flat_map_app. Qed.
Lemma sent_app a b : sent (a ++ b) = sent a ++ sent b.
Proof. apply flat_map_app. Qed.
Lemma exits_app a b : exit_codes (a ++ b) = exit_codes a ++ exit_codes b.
Proof. apply flat_map_app. Qed.
Lemma db_trace_app a b : db_trace (a ++ b) = db_trace a ++ db_trace b.
Proof. apply filter_app. Qed.

Lemma shown_line skip d : shown skip d = Out (line_for skip d).
Proof. unfold shown, line_for. now destruct (skip && contains d "DROP"). Qed.

Lemma show_quiet ddls skip : db_trace (show_ddls ddls skip) = [].
Proof.
  apply filter_none. unfold show_ddls. constructor; [reflexivity|].
  rewrite Forall_map. apply Forall_forall. intros d _. rewrite shown_line. reflexivity.
Qed.

Lemma outputs_shown skip ddls : outputs (map (shown skip) ddls) = map (line_for skip) ddls.
Proof. induction ddls; simpl; [reflexivity|]. rewrite shown_line. simpl. now f_equal. Qed.

(** ** C01 *)
Definition dumps_of (w : world) : list event := fst (dump_ddls w []).

Lemma run_dry_quiet w parse1 m o :
  opt_dry_run o = true \/ opt_export o = true -> db_trace (run w parse1 m o) = [].
Proof.
  intros H. unfold run. pose proof (dump_ddls_silent w []) as Hs.
  destruct (dump_ddls w []) as [t dump]. simpl in Hs.
  assert (Ht := silent_filter t Hs).
  destruct dump as [cur|]; [|rewrite db_trace_app, Ht; reflexivity].
  destruct (opt_export o) eqn:Ee.
  - rewrite db_trace_app, Ht. reflexivity.
  - destruct H as [H|H]; [|discriminate].
    destruct (w_read_file w t (opt_file o)) as [des|].
    2:{ rewrite !db_trace_app, Ht. reflexivity. }
    destruct (generate_idempotent_ddls (parse_ddls parse1) m des cur) as [ddls| | |].
    2,3,4: rewrite !db_trace_app, Ht; reflexivity.
    destruct ddls as [|d ddls].
    + rewrite !db_trace_app, Ht; reflexivity.
    + rewrite H. rewrite !db_trace_app, Ht, show_quiet. reflexivity.
Qed.

Lemma run_export_no_file w parse1 m o :
  opt_export o = true -> forallb (fun e => negb (reads_file e)) (run w parse1 m o) = true.
Proof.
  intros H. unfold run. pose proof (dump_ddls_silent w []) as Hs.
  destruct (dump_ddls w []) as [t dump]. simpl in Hs.
  assert (Ht := silent_no_file t Hs).
  rewrite H. destruct dump; rewrite forallb_app, Ht; reflexivity.
Qed.

(** ** The apply loop *)
Lemma apply_loop_spec w h skip ddls :
  exists executed,
    let '(t, ok) := apply_loop w h skip ddls in
    (exists c, ok = true /\ executed = selected skip ddls /\
       db_trace t = map (fun d => Exec d true) executed ++ [Commit c] /\
       outputs t = map (line_for skip) ddls /\ exit_codes t = [])
    \/
    (exists d rest r shown_rest, ok = false /\ selected skip ddls = executed ++ d :: rest /\
       db_trace t = map (fun d => Exec d true) executed ++ [Exec d false; Rollback r] /\
       map (line_for skip) ddls = outputs t ++ shown_rest /\ exit_codes t = [] /\
       exists l, outputs t = l ++ [line_for skip d]).
Proof.
  revert h; induction ddls as [|d r IH]; intros h; simpl.
  - exists []. left. eexists. repeat split; reflexivity.
  - destruct (skip && contains d "DROP") eqn:E; simpl.
    + destruct (IH (h ++ [shown skip d])) as [ex Hex].
      destruct (apply_loop w (h ++ [shown skip d]) skip r) as [t ok].
      exists ex. destruct Hex as [(c & -> & Hx & Hd & Ho & He)|(d' & rest & rb & sr & -> & Hx & Hd & Ho & He & l & Hl)].
      * left. exists c. rewrite shown_line. simpl. repeat split; auto. now rewrite Ho.
      * right. exists d', rest, rb, sr. rewrite shown_line. simpl.
        repeat split; auto. { now rewrite Ho. } exists (line_for skip d :: l). now rewrite Hl.
    + destruct (w_exec w (h ++ [shown skip d]) d).
      * destruct (IH ((h ++ [shown skip d]) ++ [Exec d true])) as [ex Hex].
        destruct (apply_loop w ((h ++ [shown skip d]) ++ [Exec d true]) skip r) as [t ok].
        exists (d :: ex). destruct Hex as [(c & -> & Hx & Hd & Ho & He)|(d' & rest & rb & sr & -> & Hx & Hd & Ho & He & l & Hl)].
        -- left. exists c. rewrite shown_line. simpl. repeat split; auto.
           ++ now rewrite Hx.
           ++ now rewrite Hd.
           ++ now rewrite Ho.
        -- right. exists d', rest, rb, sr. rewrite shown_line. simpl.
           repeat split; auto. { now rewrite Hx. } { now rewrite Hd. } { now rewrite Ho. }
           exists (line_for skip d :: l). now rewrite Hl.
      * exists []. right. exists d, (selected skip r). eexists. exists (map (line_for skip) r).
        rewrite shown_line. simpl. repeat split; auto. now exists [].
Qed.

Lemma run_apply w parse1 m o d ddls :
  opt_dry_run o = false -> opt_export o = false ->
  planned w parse1 m o = Ok (d :: ddls) ->
  let t1 := fst (dump_ddls w []) ++ [ReadFile (opt_file o)] in
  run w parse1 m o =
    t1 ++ fst (run_ddls w t1 (d :: ddls) (opt_skip_drop o)) ++
    [Exit (if snd (run_ddls w t1 (d :: ddls) (opt_skip_drop o)) then 0 else 1)].
Proof.
  intros Hd He Hp. unfold planned in Hp. unfold run.
  destruct (dump_ddls w []) as [t dump]. simpl in Hp |- *.
  destruct dump as [cur|]; [|discriminate]. rewrite He.
  destruct (w_read_file w t (opt_file o)) as [des|]; [|discriminate].
  rewrite Hp, Hd.
  destruct (run_ddls w (t ++ [ReadFile (opt_file o)]) (d :: ddls) (opt_skip_drop o)). reflexivity.
Qed.

Lemma run_dry w parse1 m o d ddls :
  opt_dry_run o = true -> opt_export o = false ->
  planned w parse1 m o = Ok (d :: ddls) ->
  run w parse1 m o = (fst (dump_ddls w []) ++ [ReadFile (opt_file o)]) ++
                     show_ddls (d :: ddls) (opt_skip_drop o) ++ [Exit 0].
Proof.
  intros Hd He Hp. unfold planned in Hp. unfold run.
  destruct (dump_ddls w []) as [t dump]. simpl in Hp |- *.
  destruct dump as [cur|]; [|discriminate]. rewrite He.
  destruct (w_read_file w t (opt_file o)) as [des|]; [|discriminate].
  now rewrite Hp, Hd.
Qed.

Lemma run_nothing w parse1 m o :
  (forall d ddls, planned w parse1 m o <> Ok (d :: ddls)) -> opt_export o = false ->
  db_trace (run w parse1 m o) = [] /\
  (planned w parse1 m o = Ok [] -> outputs (run w parse1 m o) = [("-- Nothing is modified --" ++ nl)%string] /\
                                   exit_codes (run w parse1 m o) = [0%Z]) /\
  (planned w parse1 m o <> Ok [] -> outputs (run w parse1 m o) = [] /\
                                    exists c, exit_codes (run w parse1 m o) = [c] /\ c <> 0%Z) /\
  run w parse1 m o = run w parse1 m (mkOptions (opt_file o) (negb (opt_dry_run o)) (opt_export o) (opt_skip_drop o)).
Proof.
  intros Hn He. unfold planned in *. unfold run. simpl. rewrite He.
  pose proof (dump_ddls_silent w []) as Hs.
  destruct (dump_ddls w []) as [t dump]. simpl in *.
  assert (Hf := silent_filter t Hs). assert (Ho := silent_outputs t Hs). assert (Hx := silent_exits t Hs).
  destruct dump as [cur|].
  2:{ rewrite !db_trace_app, !outputs_app, !exits_app, Hf, Ho, Hx. simpl.
      split; [reflexivity|]. split; [discriminate|]. split; [|reflexivity].
      intros _. split; [reflexivity|]. now exists 1%Z. }
  destruct (w_read_file w t (opt_file o)) as [des|].
  2:{ rewrite !db_trace_app, !outputs_app, !exits_app, Hf, Ho, Hx. simpl.
      split; [reflexivity|]. split; [discriminate|]. split; [|reflexivity].
      intros _. split; [reflexivity|]. now exists 1%Z. }
  destruct (generate_idempotent_ddls (parse_ddls parse1) m des cur) as [[|d ddls]| | |];
    [|now destruct (Hn d ddls)| | |];
    rewrite !db_trace_app, !outputs_app, !exits_app, Hf, Ho, Hx; simpl;
    (split; [reflexivity|]).
  - split; [now intros _|]. split; [|reflexivity]. intros H. now destruct H.
  - split; [discriminate|]. split; [|reflexivity]. intros _. split; [reflexivity|]. now exists 1%Z.
  - split; [discriminate|]. split; [|reflexivity]. intros _. split; [reflexivity|]. now exists 2%Z.
  - split; [discriminate|]. split; [|reflexivity]. intros _. split; [reflexivity|]. now exists 1%Z.
Qed.

(** ** C03 *)
Lemma run_trace w parse1 m o d ddls :
  opt_dry_run o = false -> opt_export o = false ->
  planned w parse1 m o = Ok (d :: ddls) ->
  let t := run w parse1 m o in
  let want := selected (opt_skip_drop o) (d :: ddls) in
  (db_trace t = [Begin false] /\ outputs t = [] /\ exit_codes t = [1%Z]) \/
  (exists c, db_trace t = Begin true :: map (fun x => Exec x true) want ++ [Commit c] /\
     outputs t = ("-- Apply --" ++ nl)%string :: map (line_for (opt_skip_drop o)) (d :: ddls) /\
     exit_codes t = [0%Z]) \/
  (exists executed bad rest r l l',
     want = executed ++ bad :: rest /\
     db_trace t = Begin true :: map (fun x => Exec x true) executed ++ [Exec bad false; Rollback r] /\
     outputs t = ("-- Apply --" ++ nl)%string :: l ++ [line_for (opt_skip_drop o) bad] /\
     map (line_for (opt_skip_drop o)) (d :: ddls) = (l ++ [line_for (opt_skip_drop o) bad]) ++ l' /\
     exit_codes t = [1%Z]).
Proof.
  intros Hd He Hp. cbv zeta. rewrite (run_apply _ _ _ _ _ _ Hd He Hp).
  pose proof (dump_ddls_silent w []) as Hs.
  destruct (dump_ddls w []) as [t dump]. simpl fst in *.
  assert (Hf := silent_filter t Hs). assert (Ho := silent_outputs t Hs). assert (Hx := silent_exits t Hs).
  rewrite !db_trace_app, !outputs_app, !exits_app, Hf, Ho, Hx.
  unfold run_ddls. destruct (w_begin w _).
  2:{ left. now simpl. }
  right.
  pose proof (apply_loop_spec w ((t ++ [ReadFile (opt_file o)]) ++ [Begin true; Out ("-- Apply --" ++ nl)%string])
                (opt_skip_drop o) (d :: ddls)) as [ex Hex].
  destruct (apply_loop w _ (opt_skip_drop o) (d :: ddls)) as [t2 ok].
  destruct Hex as [(c & -> & Hxx & Hdt & Hot & Het)|(b & rest & rb & sr & -> & Hxx & Hdt & Hot & Het & l & Hl)].
  - left. exists c. subst ex. unfold db_trace, outputs, exit_codes in *. simpl.
    rewrite Hdt, Hot, Het. simpl. rewrite !app_nil_r. auto.
  - right. exists ex, b, rest, rb, l, sr. unfold db_trace, outputs, exit_codes in *. simpl fst.
    split; [exact Hxx|]. simpl filter. simpl flat_map. rewrite Hdt, Het, Hl. simpl. rewrite !app_nil_r.
    split; [reflexivity|]. split; [reflexivity|]. split; [|reflexivity].
    rewrite <- Hl. exact Hot.
Qed.

(** ** C04 *)
Section Crash.
Context {S : Type} (sem : string -> S -> S).

Lemma crash_db_only t s : fold_left (on_event sem) t s = fold_left (on_event sem) (db_trace t) s.
Proof.
  revert s; induction t as [|e t IH]; intros [c x]; simpl; [reflexivity|].
  destruct e; simpl; try apply IH; destruct ok; simpl; apply IH.
Qed.

Lemma auto_db_only t s : fold_left (on_event_auto sem) t s = fold_left (on_event_auto sem) (db_trace t) s.
Proof.
  revert s; induction t as [|e t IH]; intros s; simpl; [reflexivity|].
  destruct e; simpl; apply IH.
Qed.

Lemma prefix_of_filter {A} (f : A -> bool) p l : prefix_of p l -> prefix_of (filter f p) (filter f l).
Proof. intros [r ->]. exists (filter f r). apply filter_app. Qed.

Lemma prefix_cases {A} (p l : list A) x : prefix_of p (l ++ [x]) -> prefix_of p l \/ p = l ++ [x].
Proof.
  intros [r Hr]. destruct r as [|y r] using rev_ind.
  - rewrite app_nil_r in Hr. right. congruence.
  - left. rewrite app_assoc in Hr. apply app_inj_tail in Hr. destruct Hr as [-> _]. now exists r.
Qed.

Lemma prefix_cons {A} (p l : list A) x : prefix_of p (x :: l) -> p = [] \/ exists p', p = x :: p' /\ prefix_of p' l.
Proof.
  intros [r Hr]. destruct p as [|y p]; [now left|]. right. injection Hr as -> ->. exists p. split; [reflexivity|now exists r].
Qed.

Lemma prefix_map {A B} (f : A -> B) p l : prefix_of p (map f l) -> exists l', p = map f l' /\ prefix_of l' l.
Proof.
  revert l; induction p as [|y p IH]; intros l [r Hr].
  - exists []. split; [reflexivity|]. now exists l.
  - destruct l as [|x l]; [discriminate|]. injection Hr as Hy Hr. subst y.
    assert (Hpp : prefix_of p (map f l)) by (exists r; exact Hr).
    destruct (IH l Hpp) as [l' [Hl [r' Hr']]]. exists (x :: l'). split; [now rewrite Hl|]. exists r'. now rewrite Hr'.
Qed.

Lemma exec_in_tx l c x :
  fold_left (on_event sem) (map (fun d => Exec d true) l) (c, Some x) = (c, Some (run_all sem l x)).
Proof. revert x; induction l as [|d l IH]; intros x; simpl; [reflexivity|]. apply IH. Qed.

Lemma exec_auto l x :
  fold_left (on_event_auto sem) (map (fun d => Exec d true) l) x = run_all sem l x.
Proof. revert x; induction l as [|d l IH]; intros x; simpl; [reflexivity|]. apply IH. Qed.

Lemma prefix_nil {A} (p : list A) : prefix_of p [] -> p = [].
Proof. intros [r Hr]. now destruct p. Qed.

(** Prefixes of the three possible database traces. *)
Lemma crash_commit l c p s0 :
  prefix_of p (Begin true :: map (fun d => Exec d true) l ++ [Commit c]) ->
  (after_crash sem s0 p = s0 /\ ~ In (Commit true) p) \/
  (In (Commit true) p /\ after_crash sem s0 p = run_all sem l s0).
Proof.
  intros H. apply prefix_cons in H. destruct H as [->|[p' [-> H]]].
  { left. split; [reflexivity|]. simpl. tauto. }
  unfold after_crash. simpl. apply prefix_cases in H. destruct H as [H| ->].
  - apply prefix_map in H. destruct H as [l' [-> _]]. rewrite exec_in_tx. left. split; [reflexivity|].
    simpl. intros [Hc|Hc]; [discriminate|]. apply in_map_iff in Hc. now destruct Hc as [? [? _]].
  - rewrite fold_left_app, exec_in_tx. simpl. destruct c; simpl.
    + right. split; [|reflexivity]. right. apply in_or_app. simpl. auto.
    + left. split; [reflexivity|]. intros [Hc|Hc]; [discriminate|]. apply in_app_or in Hc.
      destruct Hc as [Hc|[Hc|[]]]; [|discriminate]. apply in_map_iff in Hc. now destruct Hc as [? [? _]].
Qed.

Lemma crash_fail l bad r p s0 :
  prefix_of p (Begin true :: map (fun d => Exec d true) l ++ [Exec bad false; Rollback r]) ->
  after_crash sem s0 p = s0 /\ ~ In (Commit true) p.
Proof.
  intros H.
  assert (Hall : forall e, In e (Begin true :: map (fun d => Exec d true) l ++ [Exec bad false; Rollback r]) -> e <> Commit true).
  { simpl. intros e [<-|He]; [discriminate|]. apply in_app_or in He. destruct He as [He|[<-|[<-|[]]]]; try discriminate.
    apply in_map_iff in He. now destruct He as [? [<- _]]. }
  split.
  2:{ intros Hc. destruct H as [q Hq]. apply (Hall (Commit true)); [|reflexivity]. rewrite Hq. apply in_or_app. now left. }
  apply prefix_cons in H. destruct H as [->|[p' [-> H]]]; [reflexivity|].
  unfold after_crash. simpl.
  change [Exec bad false; Rollback r] with ([Exec bad false] ++ [Rollback r]) in H. rewrite app_assoc in H.
  apply prefix_cases in H. destruct H as [H| ->].
  - apply prefix_cases in H. destruct H as [H| ->].
    + apply prefix_map in H. destruct H as [l' [-> _]]. now rewrite exec_in_tx.
    + now rewrite fold_left_app, exec_in_tx.
  - now rewrite !fold_left_app, exec_in_tx.
Qed.

Lemma in_db_trace e t : touches_db e = true -> (In e (db_trace t) <-> In e t).
Proof. intros H. unfold db_trace. rewrite filter_In. tauto. Qed.

Lemma run_crash w parse1 m o p s0 ddls :
  opt_dry_run o = false -> opt_export o = false ->
  planned w parse1 m o = Ok ddls ->
  prefix_of p (run w parse1 m o) ->
  (after_crash sem s0 p = s0 /\ ~ In (Commit true) p) \/
  (In (Commit true) p /\ after_crash sem s0 p = run_all sem (selected (opt_skip_drop o) ddls) s0).
Proof.
  intros Hd He Hp Hpre. unfold after_crash. rewrite crash_db_only.
  rewrite <- (in_db_trace (Commit true) p) by reflexivity.
  apply (prefix_of_filter touches_db) in Hpre. fold (db_trace p) (db_trace (run w parse1 m o)) in Hpre.
  destruct ddls as [|d ddls].
  - destruct (run_nothing w parse1 m o) as [Hn _]; [congruence|assumption|].
    rewrite Hn in Hpre. apply prefix_nil in Hpre. rewrite Hpre. left. simpl. auto.
  - destruct (run_trace _ _ _ _ _ _ Hd He Hp) as [[Ht _]|[(c & Ht & _)|(ex & bad & rest & r & l & l' & _ & Ht & _)]];
      rewrite Ht in Hpre.
    + left. apply prefix_cons in Hpre. destruct Hpre as [->|[p' [-> Hpre]]]; [simpl; auto|].
      apply prefix_nil in Hpre. subst p'. simpl. split; [reflexivity|]. intros [Hc|[]]. discriminate.
    + now apply (crash_commit _ _ _ s0) in Hpre.
    + left. now apply (crash_fail _ _ _ _ s0) in Hpre.
Qed.

Lemma auto_exec_tail l tail p s0 :
  Forall (fun e => on_event_auto sem s0 e = s0 /\ forall d, e <> Exec d true) tail ->
  prefix_of p (map (fun d => Exec d true) l ++ tail) ->
  exists k, fold_left (on_event_auto sem) p s0 = run_all sem (firstn k l) s0 /\ (k <= length l)%nat.
Proof.
  intros Ht Hp. destruct Hp as [r Hr].
  assert (Hnoop : forall q s, Forall (fun e => on_event_auto sem s0 e = s0 /\ forall d, e <> Exec d true) q ->
            fold_left (on_event_auto sem) q s = s).
  { induction q as [|e q IH]; intros s Hq; simpl; [reflexivity|]. inversion Hq as [|? ? [_ Hne] Hq']; subst.
    rewrite IH by assumption. destruct e; simpl; auto. destruct ok; auto. now destruct (Hne s1). }
  destruct (le_lt_dec (length p) (length l)) as [Hle|Hlt].
  - exists (length p). split; [|assumption].
    assert (Hp : p = map (fun d => Exec d true) (firstn (length p) l)).
    { rewrite <- firstn_map. pose proof (f_equal (firstn (length p)) Hr) as Hf.
      rewrite firstn_app in Hf. rewrite map_length in Hf. replace (length p - length l)%nat with O in Hf by lia.
      rewrite firstn_O, app_nil_r in Hf. rewrite Hf. rewrite firstn_app. rewrite Nat.sub_diag, firstn_O, app_nil_r.
      now rewrite firstn_all. }
    rewrite Hp at 1. apply exec_auto.
  - exists (length l). split; [|lia]. rewrite firstn_all.
    assert (Hp : exists q, p = map (fun d => Exec d true) l ++ q /\ exists r', tail = q ++ r').
    { exists (skipn (length l) p). split.
      - pose proof (f_equal (firstn (length l)) Hr) as Hf. rewrite firstn_app, map_length, Nat.sub_diag, firstn_O, app_nil_r in Hf.
        rewrite firstn_all2 in Hf by (rewrite map_length; lia). rewrite firstn_app in Hf.
        replace (length l - length p)%nat with O in Hf by lia. rewrite firstn_O, app_nil_r in Hf. rewrite Hf.
        now rewrite firstn_skipn.
      - exists r. pose proof (f_equal (skipn (length l)) Hr) as Hf. rewrite skipn_app, map_length, Nat.sub_diag in Hf.
        rewrite skipn_all2 in Hf by (rewrite map_length; lia). rewrite skipn_app in Hf.
        replace (length l - length p)%nat with O in Hf by lia. exact Hf. }
    destruct Hp as [q [-> [r' ->]]]. rewrite fold_left_app, exec_auto. apply Hnoop.
    now apply Forall_app in Ht.
Qed.

Lemma firstn_prefix {A} (a b : list A) k : (k <= length a)%nat -> firstn k (a ++ b) = firstn k a.
Proof. intros H. rewrite firstn_app. replace (k - length a)%nat with O by lia. now rewrite firstn_O, app_nil_r. Qed.

Lemma run_crash_auto w parse1 m o p s0 ddls :
  opt_dry_run o = false -> opt_export o = false ->
  planned w parse1 m o = Ok ddls ->
  prefix_of p (run w parse1 m o) ->
  exists k, after_crash_auto sem s0 p = run_all sem (firstn k (selected (opt_skip_drop o) ddls)) s0.
Proof.
  intros Hd He Hp Hpre. unfold after_crash_auto. rewrite auto_db_only.
  apply (prefix_of_filter touches_db) in Hpre. fold (db_trace p) (db_trace (run w parse1 m o)) in Hpre.
  destruct ddls as [|d ddls].
  - destruct (run_nothing w parse1 m o) as [Hn _]; [congruence|assumption|].
    rewrite Hn in Hpre. apply prefix_nil in Hpre. rewrite Hpre. now exists O.
  - destruct (run_trace _ _ _ _ _ _ Hd He Hp) as [[Ht _]|[(c & Ht & _)|(ex & bad & rest & r & l & l' & Hw & Ht & _)]];
      rewrite Ht in Hpre; (apply prefix_cons in Hpre; destruct Hpre as [Hq|[p' [Hq Hpre]]];
      [rewrite Hq; now exists O|rewrite Hq; cbn [fold_left on_event_auto]]).
    + apply prefix_nil in Hpre. subst p'. now exists O.
    + destruct (auto_exec_tail (selected (opt_skip_drop o) (d :: ddls)) [Commit c] p' s0) as [k [Hk _]].
      * constructor; [|constructor]. split; [reflexivity|discriminate].
      * exact Hpre.
      * exists k. exact Hk.
    + destruct (auto_exec_tail ex [Exec bad false; Rollback r] p' s0) as [k [Hk Hle]].
      * constructor; [split; [reflexivity|discriminate]|]. constructor; [|constructor]. split; [reflexivity|discriminate].
      * exact Hpre.
      * exists k. rewrite Hw, firstn_prefix by assumption. exact Hk.
Qed.
End Crash.

(** ** C02 *)
Definition dry (o : options) : options := mkOptions (opt_file o) true (opt_export o) (opt_skip_drop o).

Lemma sent_db t : sent t = sent (db_trace t).
Proof. induction t as [|e t IH]; simpl; [reflexivity|]. destruct e; simpl; rewrite ?IH; reflexivity. Qed.

Lemma sent_execs l tail : sent (map (fun x => Exec x true) l ++ tail) = l ++ sent tail.
Proof. induction l as [|x l IH]; simpl; [reflexivity|]. now rewrite IH. Qed.

Lemma run_dry_outputs w parse1 m o d ddls :
  opt_dry_run o = true -> opt_export o = false ->
  planned w parse1 m o = Ok (d :: ddls) ->
  outputs (run w parse1 m o) = ("-- dry run --" ++ nl)%string :: map (line_for (opt_skip_drop o)) (d :: ddls) /\
  exit_codes (run w parse1 m o) = [0%Z].
Proof.
  intros Hd He Hp. rewrite (run_dry _ _ _ _ _ _ Hd He Hp).
  pose proof (dump_ddls_silent w []) as Hs.
  destruct (dump_ddls w []) as [t dump]. simpl fst in *.
  assert (Ho := silent_outputs t Hs). assert (Hx := silent_exits t Hs).
  rewrite !outputs_app, !exits_app, Ho, Hx. simpl.
  assert (forall l, outputs (map (shown (opt_skip_drop o)) l) = map (line_for (opt_skip_drop o)) l /\
                    exit_codes (map (shown (opt_skip_drop o)) l) = []) as H.
  { induction l as [|x l [IH1 IH2]]; [now split|]. cbn [map]. rewrite shown_line. simpl. now rewrite IH1, IH2. }
  rewrite !shown_line. simpl. destruct (H ddls) as [-> ->]. rewrite app_nil_r. split; reflexivity.
Qed.

Lemma run_dry_vs_apply w parse1 m o :
  opt_export o = false -> opt_dry_run o = false ->
  let app := run w parse1 m o in
  let dr := run w parse1 m (dry o) in
  (app = dr /\ sent app = [] /\ db_trace app = []) \/
  (exists ddls, ddls <> [] /\
     let lines := map (line_for (opt_skip_drop o)) ddls in
     outputs dr = ("-- dry run --" ++ nl)%string :: lines /\ exit_codes dr = [0%Z] /\
     ((outputs app = [] /\ db_trace app = [Begin false] /\ exit_codes app = [1%Z]) \/
      (outputs app = ("-- Apply --" ++ nl)%string :: lines /\ exit_codes app = [0%Z] /\
       sent app = selected (opt_skip_drop o) ddls) \/
      (exists l bad l' rest, lines = (l ++ [line_for (opt_skip_drop o) bad]) ++ l' /\
         outputs app = ("-- Apply --" ++ nl)%string :: l ++ [line_for (opt_skip_drop o) bad] /\
         exit_codes app = [1%Z] /\ In (Exec bad false) app /\
         exists done, sent app = done ++ [bad] /\ selected (opt_skip_drop o) ddls = sent app ++ rest))).
Proof.
  intros He Hd. cbv zeta.
  assert (Hpl : planned w parse1 m (dry o) = planned w parse1 m o) by reflexivity.
  destruct (planned w parse1 m o) as [[|d ddls]| | |] eqn:Hp.
  2:{ right. exists (d :: ddls). split; [discriminate|].
      destruct (run_dry_outputs w parse1 m (dry o) d ddls eq_refl He Hpl) as [Ho Hx].
      split; [exact Ho|]. split; [exact Hx|].
      destruct (run_trace _ _ _ _ _ _ Hd He Hp) as [[Ht [Ho' Hx']]|[(c & Ht & Ho' & Hx')|(ex & bad & rest & r & l & l' & Hw & Ht & Ho' & Hl & Hx')]].
      - left. auto.
      - right; left. split; [exact Ho'|]. split; [exact Hx'|]. rewrite sent_db, Ht. simpl. rewrite sent_execs. simpl. apply app_nil_r.
      - right; right. exists l, bad, l', rest. split; [exact Hl|]. split; [exact Ho'|]. split; [exact Hx'|].
        split.
        + apply (in_db_trace (Exec bad false)); [reflexivity|]. rewrite Ht. right. apply in_or_app. right. now left.
        + exists ex. rewrite sent_db, Ht. simpl. rewrite sent_execs. simpl. split; [reflexivity|].
          rewrite <- app_assoc. exact Hw. }
  all: left; destruct (run_nothing w parse1 m o) as [H1 [_ [_ H4]]]; [congruence|assumption|];
    rewrite Hd in H4; split; [exact H4|]; split; [|exact H1]; now rewrite sent_db, H1.
Qed.

(** ** C08: no step before the plan touches the database. *)
Lemma run_errors w parse1 m o :
  opt_export o = false ->
  (forall ddls, planned w parse1 m o <> Ok ddls) ->
  db_trace (run w parse1 m o) = [] /\ outputs (run w parse1 m o) = [] /\
  exists c, exit_codes (run w parse1 m o) = [c] /\ c <> 0%Z.
Proof.
  intros He Hn. destruct (run_nothing w parse1 m o) as [H1 [_ [H3 _]]]; [|assumption|].
  - intros d ddls. apply Hn.
  - destruct (H3 (Hn [])) as [H4 H5]. now split.
Qed.

Lemma run_empty_plan w parse1 m o :
  opt_export o = false -> planned w parse1 m o = Ok [] ->
  db_trace (run w parse1 m o) = [] /\
  outputs (run w parse1 m o) = [("-- Nothing is modified --" ++ nl)%string] /\
  exit_codes (run w parse1 m o) = [0%Z].
Proof.
  intros He Hn. destruct (run_nothing w parse1 m o) as [H1 [H2 _]]; [congruence|assumption|].
  split; [assumption|]. exact (H2 Hn).
Qed.

(** ** C09 *)
Lemma run_success w parse1 m o ddls :
  opt_dry_run o = false -> opt_export o = false ->
  planned w parse1 m o = Ok ddls -> ddls <> [] ->
  exit_codes (run w parse1 m o) = [0%Z] ->
  exists c, db_trace (run w parse1 m o) =
    Begin true :: map (fun x => Exec x true) (selected (opt_skip_drop o) ddls) ++ [Commit c].
Proof.
  intros Hd He Hp Hn Hx. destruct ddls as [|d ddls]; [congruence|].
  destruct (run_trace _ _ _ _ _ _ Hd He Hp) as [[_ [_ H]]|[(c & Ht & _)|(ex & bad & rest & r & l & l' & _ & _ & _ & _ & H)]].
  - congruence.
  - now exists c.
  - congruence.
Qed.

(** ** C10 *)
Lemma dump_tables_static w (def : string -> string) names h :
  (forall h n, In n names -> w_dump_table w h n = Some (def n)) ->
  snd (dump_tables w h names) = Some (map def names).
Proof.
  revert h; induction names as [|n r IH]; intros h H; simpl; [reflexivity|].
  rewrite H by now left. specialize (IH (h ++ [QDumpTable n])).
  destruct (dump_tables w (h ++ [QDumpTable n]) r) as [t ol]. simpl in *. rewrite IH; auto.
Qed.

Lemma run_export_output w parse1 m o names def views triggers :
  (forall h, w_table_names w h = Some names) ->
  (forall h n, In n names -> w_dump_table w h n = Some (def n)) ->
  (forall h, w_views w h = Some views) -> (forall h, w_triggers w h = Some triggers) ->
  opt_export o = true ->
  let all := map def names ++ views ++ triggers in
  outputs (run w parse1 m o) =
    [if String.eqb (join (";" ++ nl ++ nl) all) "" then ("-- No table exists --" ++ nl)%string
     else (join (";" ++ nl ++ nl) all ++ ";" ++ nl)%string] /\
  exit_codes (run w parse1 m o) = [0%Z].
Proof.
  intros Hn Ht Hv Hg He. cbv zeta.
  pose proof (dump_ddls_silent w []) as Hs. unfold run.
  assert (Hdump : snd (dump_ddls w []) = Some (join (";" ++ nl ++ nl) (map def names ++ views ++ triggers))).
  { unfold dump_ddls. rewrite Hn. pose proof (dump_tables_static w def names ([] ++ [QTableNames]) Ht) as H.
    destruct (dump_tables w _ names) as [t ol]. simpl in H. subst ol. rewrite Hv, Hg. reflexivity. }
  destruct (dump_ddls w []) as [t dump]. simpl in Hdump, Hs. subst dump. rewrite He.
  assert (Ho := silent_outputs t Hs). assert (Hx := silent_exits t Hs).
  rewrite outputs_app, exits_app, Ho, Hx. split; reflexivity.
Qed.

Lemma run_export_readback w parse1 m o names def views triggers :
  (forall h, w_table_names w h = Some names) ->
  (forall h n, In n names -> w_dump_table w h n = Some (def n)) ->
  (forall h, w_views w h = Some views) -> (forall h, w_triggers w h = Some triggers) ->
  opt_export o = true ->
  Forall plain_statement (map def names ++ views ++ triggers) ->
  exists text, outputs (run w parse1 m o) = [text] /\
    split_statements text = map def names ++ views ++ triggers.
Proof.
  intros Hn Ht Hv Hg He Hp.
  destruct (run_export_output w parse1 m o _ _ _ _ Hn Ht Hv Hg He) as [Ho _]. eexists. split; [exact Ho|].
  now apply export_roundtrip.
Qed.
