(** The texts of the MySQL export are written of pieces, and these are the tokens of the runs. *)
From Coq Require Import String Ascii List ZArith Bool Lia.
From Verif Require Import GoStr GoStrFacts Ast Formatter Keywords Lexer SqlAst SchemaParse SpecPlan SpecLexer SpecLayout SpecShown SpecShownMysql ProofOrder ProofReadEx
  ProofPieces ProofReadColumn ProofReadTable ProofReadRest ProofPiecesMysql ProofReadMyColumn ProofReadMyTable ProofReadMyRest.
Import ListNotations.
Local Open Scope string_scope.
Local Open Scope list_scope.

(** ** Pieces that may follow each other *)
Definition mloose_first (r : list my_piece) : Prop := match r with [] => True | p :: _ => mclass p = Loose end.
Definition mchunk (l : list my_piece) : Prop := forall r, mloose_first r -> mlinked_after Loose r = true -> mlinked_after Loose (l ++ r) = true.
(** [part l]: well written after a blank; [next l]: after anything. *)
Definition part (l : list my_piece) : Prop := forallb mwf l = true /\ mchunk l.
Definition next (l : list my_piece) : Prop := part l /\ mloose_first l.
Lemma mlink_loose k r : k <> Dotted -> mloose_first r -> mlinked_after Loose r = true -> mlinked_after k r = true.
Proof.
  destruct r as [|p r]; [reflexivity|]. cbn [mloose_first mlinked_after]. intros K E. rewrite E. intros L. apply andb_true_iff in L as [_ L]. rewrite L, andb_true_r. now destruct k.
Qed.
Lemma part_nil : part [].
Proof. split; [reflexivity|now intros r _ L]. Qed.
Lemma next_nil : next [].
Proof. split; [exact part_nil|exact Logic.I]. Qed.
Lemma next_part l : next l -> part l.
Proof. now intros [P _]. Qed.
Lemma mloose_app a b : mloose_first a -> mloose_first b -> mloose_first (a ++ b).
Proof. destruct a; [now intros|]. now intros. Qed.
Lemma part_app a b : part a -> next b -> part (a ++ b).
Proof.
  intros [A C] [[B D] F]. split; [now rewrite forallb_app, A, B|]. intros r R L. rewrite <- app_assoc. apply C; [now apply mloose_app|now apply D].
Qed.
Lemma next_app a b : next a -> next b -> next (a ++ b).
Proof. intros [A L] B. split; [now apply part_app|]. apply mloose_app; [exact L|exact (proj2 B)]. Qed.
Lemma next_loose p l : mclass p = Loose -> mwf p = true -> part l -> next (p :: l).
Proof.
  intros C W [A B]. split; [|exact C]. split; [cbn [forallb]; now rewrite W|]. intros r R L. cbn [app mlinked_after]. rewrite C. cbn [adjacent andb]. now apply B.
Qed.
Lemma part_tight p l : mclass p = Tight \/ mclass p = Value -> mwf p = true -> next l -> part (p :: l).
Proof.
  intros C W [[A B] F]. split; [cbn [forallb]; now rewrite W|]. intros r R L. cbn [app mlinked_after]. cbn [adjacent andb].
  apply mlink_loose; [destruct C as [-> | ->]; discriminate|now apply mloose_app|now apply B].
Qed.
Lemma part_dot p q l : mclass p = Tight -> mwf p = true -> mclass q = Tight -> part (q :: l) -> part (p :: MDot :: q :: l).
Proof.
  intros C W D [A B]. split; [cbn [forallb] in *; now rewrite W|]. intros r R L. specialize (B r R L). cbn [app mlinked_after mclass] in *. rewrite C, D in *. cbn [adjacent andb] in *. exact B.
Qed.
Lemma next_if {A} (f : A -> list my_piece) o : (forall x, o = Some x -> next (f x)) -> next (shown_if f o).
Proof. destruct o as [x|]; [|intros _; exact next_nil]. intros H. now apply H. Qed.
Lemma next_flat_map {A} (f : A -> list my_piece) l : (forall x, In x l -> next (f x)) -> next (flat_map f l).
Proof. induction l as [|x l IH]; [intros _; exact next_nil|]. intros H. cbn [flat_map]. apply next_app; [apply H; now left|apply IH; intros y Y; apply H; now right]. Qed.
Lemma part_separated sep l : (forall m, part m -> next (sep ++ m)) -> (forall x, In x l -> part x) -> part (separated sep l).
Proof.
  intros S. induction l as [|x l IH]; [intros _; exact part_nil|]. intros H. cbn [separated]. apply part_app; [apply H; now left|].
  destruct l as [|y l]; [exact next_nil|]. apply S. apply IH. intros z Z. apply H. now right.
Qed.
Lemma next_between l : part l -> next (between l).
Proof. intros P. apply next_loose; [reflexivity|reflexivity|]. apply part_app; [exact P|]. apply next_loose; [reflexivity|reflexivity|exact part_nil]. Qed.
Lemma part_written l : part l -> mwritten l.
Proof. intros [A B]. split; [exact A|]. rewrite <- (app_nil_r l). now apply B. Qed.
Lemma next_comma m : part m -> next ([comma_sign] ++ m).
Proof. intros P. now apply next_loose. Qed.
Lemma next_comma_blank m : part m -> next ([comma_sign; blank1] ++ m).
Proof. intros P. apply next_loose; [reflexivity|reflexivity|]. apply next_part. now apply next_loose. Qed.
Lemma next_comma_line m : part m -> next ([comma_sign; line_break] ++ m).
Proof. intros P. apply next_loose; [reflexivity|reflexivity|]. apply next_part. now apply next_loose. Qed.
(** Fixed words. *)
Ltac parts :=
  cbn [app]; repeat first
    [exact part_nil | exact next_nil | assumption
    | apply next_between | apply part_dot; [reflexivity|try assumption; try reflexivity|reflexivity|]
    | apply part_tight; [cbn; tauto|try assumption; try reflexivity|] | apply next_loose; [reflexivity|reflexivity|] | apply next_part].

Lemma number_wf z : my_number z = true -> (0 <=? z)%Z = true.
Proof. unfold my_number. intros H. now apply andb_true_iff in H as [H _]. Qed.
Lemma one_number_next z : my_number z = true -> next (one_number z).
Proof. intros H. apply number_wf in H. unfold one_number. parts. Qed.
Lemma two_numbers_next p : my_number (fst p) && my_number (snd p) = true -> next (two_numbers p).
Proof. intros H. apply andb_true_iff in H as [A B]. apply number_wf in A. apply number_wf in B. unfold two_numbers. parts. Qed.
Lemma charset_next cs co : all_opt my_word cs = true -> all_opt my_word co = true -> next (shown_charset cs co).
Proof.
  intros A B. unfold shown_charset. apply next_app; apply next_if; intros c ->; cbn in A, B; parts.
Qed.
Lemma unsigned_next u : next (shown_unsigned u).
Proof. destruct u; cbn; parts. Qed.
Lemma opt_all {A} (f : A -> bool) o x : all_opt f o = true -> o = Some x -> f x = true.
Proof. now intros H ->. Qed.
Lemma word_in w l : mem w l = true -> forallb keyword_ok l = true -> mwf (MWord w) = true.
Proof. intros H K. apply mem_in in H. rewrite forallb_forall in K. now apply K. Qed.
Ltac type_word H := eapply word_in; [exact H|vm_compute; reflexivity].
Lemma type_part t : my_type_ok t = true -> part (shown_type t).
Proof.
  intros H. unfold shown_type. destruct t; cbn [my_type_ok my_type_word] in *; rewrite ?andb_true_iff in H.
  - destruct H as [W N]. apply part_tight; [cbn; tauto|type_word W|]. apply next_app; [|apply unsigned_next]. apply next_if. intros x X. apply one_number_next. eapply opt_all; eauto.
  - destruct H as [W N]. apply part_tight; [cbn; tauto|type_word W|]. apply next_app; [|apply unsigned_next]. apply next_if. intros x X. apply two_numbers_next. exact (opt_all _ _ _ N X).
  - apply part_tight; [cbn; tauto|vm_compute; reflexivity|]. apply next_app; [|apply unsigned_next]. apply two_numbers_next. now apply andb_true_iff.
  - destruct H as [W N]. apply part_tight; [cbn; tauto|type_word W|]. apply next_if. intros x X. apply one_number_next. eapply opt_all; eauto.
  - apply part_tight; [cbn; tauto|type_word H|exact next_nil].
  - destruct H as [[[W N] C] O]. apply part_tight; [cbn; tauto|type_word W|]. apply next_app; [now apply one_number_next|now apply charset_next].
  - destruct H as [W N]. apply part_tight; [cbn; tauto|type_word W|]. now apply one_number_next.
  - destruct H as [[W C] O]. apply part_tight; [cbn; tauto|type_word W|]. now apply charset_next.
  - destruct H as [[[W N] C] O]. apply part_tight; [cbn; tauto|type_word W|]. apply next_app; [|now apply charset_next].
    apply next_between, part_separated; [exact next_comma|]. intros x X. apply in_map_iff in X as (s & <- & _). parts.
Qed.
Lemma now_next n : all_opt my_number n = true -> part (shown_now n).
Proof. intros H. unfold shown_now. apply part_tight; [cbn; tauto|vm_compute; reflexivity|]. apply next_if. intros x X. apply one_number_next. eapply opt_all; eauto. Qed.
Lemma column_part c : my_column_ok c = true -> part (shown_column c).
Proof.
  unfold my_column_ok, shown_column. intros K. rewrite !andb_true_iff in K. destruct K as [[[[Kn Kt] Kd] Ku] Kc].
  cbn [app]. apply part_tight; [cbn; tauto|exact Kn|]. apply next_loose; [reflexivity|reflexivity|]. apply part_app; [now apply type_part|].
  apply next_app; [apply next_if; intros [] _; parts|]. apply next_app; [apply next_if; intros d D; pose proof (opt_all _ _ _ Kd D) as O|].
  { cbn [app]. apply next_loose; [reflexivity|reflexivity|]. apply part_tight; [cbn; tauto|reflexivity|]. apply next_loose; [reflexivity|reflexivity|].
    destruct d as [|s|z|n|s]; cbn in O |- *; [parts|parts|apply number_wf in O; parts|now apply now_next|]. apply part_tight; [cbn; tauto|exact O|exact next_nil]. }
  apply next_app; [apply next_if; intros n N; pose proof (opt_all _ _ _ Ku N) as O|].
  { cbn [app]. apply next_loose; [reflexivity|reflexivity|]. apply part_tight; [cbn; tauto|reflexivity|]. apply next_loose; [reflexivity|reflexivity|].
    apply part_tight; [cbn; tauto|reflexivity|]. apply next_loose; [reflexivity|reflexivity|]. now apply now_next. }
  apply next_app; [destruct (mc_auto c); parts|]. apply next_if. intros s _. parts.
Qed.
Lemma key_column_part c : my_key_column_ok c = true -> part (shown_key_column c).
Proof.
  unfold my_key_column_ok, shown_key_column. intros K. apply andb_true_iff in K as [K1 K2]. apply part_tight; [cbn; tauto|exact K1|].
  apply next_app; [apply next_if; intros x X; apply one_number_next; eapply opt_all; eauto|]. destruct (kc_desc c); parts.
Qed.
Lemma key_option_next o : my_key_option_ok o = true -> next (shown_key_option o).
Proof.
  destruct o as [w|z|s]; cbn [my_key_option_ok shown_key_option]; intros K; [parts| |parts]. apply number_wf in K. parts.
Qed.
Lemma key_part k : my_key_ok k = true -> part (shown_key k).
Proof.
  unfold my_key_ok, shown_key. intros K. rewrite !andb_true_iff in K. destruct K as [[Kn Kc] Ko].
  assert (B : next (between (separated [comma_sign] (map shown_key_column (mk_columns k))) ++ flat_map shown_key_option (mk_options k))).
  { apply next_app.
    - apply next_between, part_separated; [exact next_comma|]. intros x X. apply in_map_iff in X as (c & <- & C). apply key_column_part. rewrite forallb_forall in Kc. now apply Kc.
    - apply next_flat_map. intros o O. apply key_option_next. rewrite forallb_forall in Ko. now apply Ko. }
  destruct (mk_kind k); cbn [kind_words flat_map app]; parts.
Qed.
Lemma name_list_next x l : forallb my_name (x :: l) = true -> next (name_list x l).
Proof.
  intros H. unfold name_list. apply next_between, part_separated; [exact next_comma_blank|]. intros y Y. apply in_map_iff in Y as (n & <- & N). rewrite forallb_forall in H.
  apply part_tight; [cbn; tauto|exact (H n N)|exact next_nil].
Qed.
Lemma actions_next w a : mwf (MWord w) = true -> next (keywords_text ("ON" :: w :: action_text a)).
Proof. intros W. destruct a; cbn [keywords_text action_text flat_map app]; parts. Qed.
Lemma fk_part f : my_fk_ok f = true -> part (shown_fk f).
Proof.
  unfold my_fk_ok, shown_fk. intros K. rewrite !andb_true_iff in K. destruct K as [[[Kn Kt] Kc] Kr].
  pose proof (name_list_next _ _ Kc) as C. pose proof (name_list_next _ _ Kr) as R.
  assert (T : next (name_list (mf_ref_column f) (mf_ref_columns f) ++ shown_if (fun a => keywords_text ("ON" :: "DELETE" :: action_text a)) (mf_delete f) ++
    shown_if (fun a => keywords_text ("ON" :: "UPDATE" :: action_text a)) (mf_update f))).
  { apply next_app; [exact R|]. apply next_app; apply next_if; intros a _; apply actions_next; reflexivity. }
  assert (U : next ([blank1; MWord "REFERENCES"; blank1; MName (mf_table f); blank1] ++ name_list (mf_ref_column f) (mf_ref_columns f) ++ shown_if (fun a => keywords_text ("ON" :: "DELETE" :: action_text a)) (mf_delete f) ++
    shown_if (fun a => keywords_text ("ON" :: "UPDATE" :: action_text a)) (mf_update f))) by parts.
  pose proof (next_app _ _ C U) as V. parts.
Qed.
Lemma option_next o : my_option_ok o = true -> next (shown_option o).
Proof.
  unfold my_option_ok, shown_option. intros K. apply andb_true_iff in K as [K V]. apply mem_in in K.
  assert (E : next ([MSign "="; match mo_value o with OWord w => MBare w | ONumber z => MNum z | OText s => MText s end])).
  { apply next_loose; [reflexivity|reflexivity|]. destruct (mo_value o) as [w|z|s]; [parts| |parts]. apply number_wf in V. parts. }
  cbv [option_names In] in K. repeat (destruct K as [<-|K]); try contradiction; cbn [option_words]; parts.
Qed.
Lemma table_part t : my_table_ok t = true -> part (shown_table t).
Proof.
  unfold my_table_ok, shown_table. intros K. rewrite !andb_true_iff in K. destruct K as [[[[Kn Kc] Kk] Kf] Ko].
  assert (S : part (separated [comma_sign; line_break] (shown_items t))).
  { apply part_separated; [exact next_comma_line|]. unfold shown_items. intros x X. rewrite !in_app_iff, !in_map_iff in X. rewrite forallb_forall in Kc, Kk, Kf.
    destruct X as [(c & <- & C)|[(c & <- & C)|(c & <- & C)]]; [apply column_part|apply key_part|apply fk_part]; auto. }
  assert (O : next ([MBlank (String "010" ""); MSign ")"] ++ flat_map shown_option (my_options t))).
  { cbn [app]. apply next_loose; [reflexivity|reflexivity|]. apply next_part, next_loose; [reflexivity|reflexivity|]. apply next_part, next_flat_map. intros o I. apply option_next.
    rewrite forallb_forall in Ko. now apply Ko. }
  pose proof (part_app _ _ S O) as P. parts.
Qed.
