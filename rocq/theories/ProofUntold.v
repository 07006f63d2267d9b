(** The plan does not depend on the texts of the current statements. *)
From Coq Require Import String List Bool.
From Verif Require Import GoStr Ast Generator SpecLayout.
Import ListNotations.
Local Open Scope list_scope.

Definition untold_view (v : view) : view := mkView "" (vw_name v) (vw_definition v).
Definition untold_trigger (t : trigger) : trigger := mkTrigger "" (tr_name t) (tr_table t) (tr_time t) (tr_event t) (tr_body t).
Definition untold (g : gstate) : gstate :=
  mkG (g_cur g) (g_des g) (map untold_view (g_cur_views g)) (g_des_views g) (map untold_trigger (g_cur_triggers g)) (g_des_triggers g).
Definition untold_step (r : res (gstate * list stmt)) : res (gstate * list stmt) := in_ok (fun p => (untold (fst p), snd p)) r.

Lemma find_untold_view l n : find_view (map untold_view l) n = option_map untold_view (find_view l n).
Proof. unfold find_view. induction l as [|v l IH]; [reflexivity|]. cbn. destruct (String.eqb (vw_name v) n); [reflexivity|exact IH]. Qed.
Lemma find_untold_trigger l n : find_trigger (map untold_trigger l) n = option_map untold_trigger (find_trigger l n).
Proof. unfold find_trigger. induction l as [|v l IH]; [reflexivity|]. cbn. destruct (String.eqb (tr_name v) n); [reflexivity|exact IH]. Qed.

Lemma step_untold m g d : step m (untold g) d = untold_step (step m g d).
Proof.
  destruct d as [s t|s n i|s n i|s n i|s n f|s n p|v|t]; cbn [step].
  - unfold step_create_table. cbn [untold g_cur g_des]. destruct (find_table (g_cur g) (t_name t)) as [ct|]; [|reflexivity]. now destruct (ddls_for_create_table m ct t).
  - unfold step_index. cbn [untold g_cur g_des]. destruct (find_table (g_cur g) n) as [ct|]; [|reflexivity].
    destruct (match find_index (t_indexes ct) (i_name i) with None => _ | Some ci => _ end) as [cur out]. destruct (find_table (g_des g) n); [|reflexivity]. now destruct (contains_string _ _).
  - unfold step_index. cbn [untold g_cur g_des]. destruct (find_table (g_cur g) n) as [ct|]; [|reflexivity].
    destruct (match find_index (t_indexes ct) (i_name i) with None => _ | Some ci => _ end) as [cur out]. destruct (find_table (g_des g) n); [|reflexivity]. now destruct (contains_string _ _).
  - reflexivity.
  - unfold step_fk. cbn [untold g_cur g_des]. destruct (find_table (g_des g) n); [|reflexivity]. now destruct (contains_string _ _).
  - unfold step_policy. cbn [untold g_cur g_des]. destruct (find_table (g_cur g) n) as [ct|]; [|reflexivity].
    destruct (match find_policy (t_policies ct) (p_name p) with None => _ | Some ci => _ end) as [cur out]. destruct (find_table (g_des g) n); [|reflexivity]. now destruct (contains_string _ _).
  - unfold step_view. cbn [untold g_cur_views g_des_views]. rewrite find_untold_view. destruct (contains_string _ _); [reflexivity|]. unfold untold_step. cbn [in_ok fst snd].
    destruct (find_view (g_cur_views g) (vw_name v)); reflexivity.
  - unfold step_trigger. destruct (trigger_definition m t); [|reflexivity]. cbn [untold g_cur_triggers g_des_triggers]. rewrite find_untold_trigger. unfold untold_step. cbn [in_ok fst snd].
    destruct (find_trigger (g_cur_triggers g) (tr_name t)); reflexivity.
Qed.
Lemma steps_untold m l : forall g, steps m (untold g) l = untold_step (steps m g l).
Proof.
  induction l as [|d l IH]; intros g; [reflexivity|]. cbn [steps]. rewrite step_untold. destruct (step m g d) as [[g1 a]| | |]; try reflexivity. cbn [untold_step in_ok bind fst snd].
  rewrite IH. now destruct (steps m g1 l) as [[g2 b]| | |].
Qed.
Lemma generate_untold m g l : generate_ddls m (untold g) l = generate_ddls m g l.
Proof.
  unfold generate_ddls. rewrite steps_untold. destruct (steps m g l) as [[g1 a]| | |]; try reflexivity. cbn [untold_step in_ok bind fst snd untold g_cur g_des].
  destruct (cleanup_tables m (g_des g1) (g_cur g1) (g_cur g1)); try reflexivity. cbn [bind]. f_equal. f_equal. f_equal.
  unfold cleanup_views. cbn [untold g_cur_views g_des_views]. induction (g_cur_views g1) as [|v r IH]; [reflexivity|]. cbn [map flat_map]. now rewrite IH.
Qed.

Definition untold_error (r : res (list table)) : option (list table) := match r with Ok l => Some l | _ => None end.
Lemma convert_untold l : forall tables, untold_error (convert_from tables (map without_text l)) = untold_error (convert_from tables l).
Proof.
  induction l as [|d l IH]; intros tables; [reflexivity|]. cbn [map convert_from]. destruct d as [s t|s n i|s n i|s n i|s n f|s n p|v|t]; cbn [without_text convert_step bind]; try apply IH; try reflexivity;
    destruct (find_table tables n); cbn [bind]; try apply IH; try reflexivity. destruct (mark_primary i t); cbn [bind]; try apply IH; reflexivity.
Qed.
Lemma init_untold tables l : init_state tables (map without_text l) = untold (init_state tables l).
Proof.
  unfold init_state, untold. cbn [g_cur g_des g_cur_views g_des_views g_cur_triggers g_des_triggers]. f_equal.
  - unfold convert_ddls_to_views. induction l as [|d l IH]; [reflexivity|]. cbn [map flat_map]. rewrite map_app, IH. now destruct d.
  - unfold convert_ddls_to_triggers. induction l as [|d l IH]; [reflexivity|]. cbn [map flat_map]. rewrite map_app, IH. now destruct d.
Qed.
Theorem plan_untold m desired current out : plan m desired (map without_text current) = Ok out <-> plan m desired current = Ok out.
Proof.
  unfold plan, convert_ddls_to_tables. pose proof (convert_untold current []) as E.
  destruct (convert_from [] (map without_text current)) as [a| | |], (convert_from [] current) as [b| | |]; try discriminate E; cbn [bind]; try (split; discriminate).
  injection E as ->. now rewrite init_untold, generate_untold.
Qed.
