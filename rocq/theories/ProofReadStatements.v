(** The texts of exported indexes, foreign keys, policies and views as pieces. *)
From Coq Require Import String Ascii List ZArith Bool Lia.
From Verif Require Import GoStr GoStrFacts Ast Keywords Lexer SchemaText SqlAst SchemaParse AdapterPostgres SpecLexer SpecLayout SpecShown SpecExport ProofExport ProofExport3 ProofReadEx ProofPieces ProofReadColumn ProofReadTable ProofReadRest ProofReadText.
Import ListNotations.
Local Open Scope string_scope.
Local Open Scope list_scope.

Section Statements.
Variable quoted : string -> bool.
Notation render := (ProofPieces.render quoted).
Notation pwf := (ProofPieces.pwf quoted).
Notation "a +++ b" := (String.append a b) (at level 60, right associativity).

Definition group_pieces (e : ex) : list piece := PChar "(" :: ex_pieces e ++ [PChar ")"].
Lemma group_words e : words (group_pieces e) = group_tokens e.
Proof. unfold group_pieces. rewrite words_cons, words_app, ex_words. reflexivity. Qed.

(** ** Indexes *)
Definition index_key_pieces (k : string * bool) : list piece := PName (fst k) :: (if snd k then [blank; PWord "DESC"] else []).
Definition index_pieces (schema table : string) (i : shown_index) : list piece :=
  [PWord "CREATE"; blank] ++ (if six_unique i then [PWord "UNIQUE"; blank] else []) ++
  [PWord "INDEX"; blank; PName (six_name i); blank; PWord "ON"; blank; PBare schema; PDot; PBare table; blank; PWord "USING"; blank; PBare "btree"; blank; PChar "("] ++
  sep_pieces [PChar ","; blank] index_key_pieces (six_columns i) ++ [PChar ")"] ++
  opt_pieces (fun e => [blank; PWord "WHERE"; blank] ++ group_pieces e) (six_where i).
Lemma index_words schema table i : words (index_pieces schema table i) = index_tokens schema table i.
Proof.
  unfold index_pieces, index_tokens. rewrite !words_app, sep_words.
  assert (M : forall l, flat_map (fun y => words [PChar ","; blank] ++ words (index_key_pieces y)) l = more_keys l).
  { unfold more_keys. induction l as [|[m []] l IH]; [reflexivity| |]; cbn [flat_map]; rewrite IH; reflexivity. }
  assert (E : match six_columns i with [] => [] | x :: l => words (index_key_pieces x) ++ flat_map (fun y => words [PChar ","; blank] ++ words (index_key_pieces y)) l end =
              match six_columns i with [] => [] | k :: l => name_token (fst k) :: desc_tokens (snd k) ++ more_keys l end).
  { destruct (six_columns i) as [|k l]; [reflexivity|]. rewrite M. now destruct k as [n []]. }
  rewrite E. clear E.
  assert (E : words (opt_pieces (fun e => [blank; PWord "WHERE"; blank] ++ group_pieces e) (six_where i)) =
              match six_where i with Some e => T "WHERE" "where" :: group_tokens e | None => [] end).
  { destruct (six_where i) as [e|]; [|reflexivity]. cbn [opt_pieces]. rewrite words_app, group_words. reflexivity. }
  rewrite E. clear E. destruct (six_unique i); reflexivity.
Qed.

Lemma group_wf e : ex_ok e = true -> forallb pwf (group_pieces e) = true.
Proof. intros H. unfold group_pieces. cbn [forallb ProofPieces.pwf]. rewrite forallb_app, (ex_wf quoted e H). reflexivity. Qed.
Lemma group_chunk e : chunk (group_pieces e).
Proof. unfold group_pieces. apply chunk_after; [reflexivity|]. apply chunk_app; [apply ex_chunk|fixed|reflexivity]. Qed.
Lemma group_render e : ex_ok e = true -> render (group_pieces e) = "(" +++ pg_text quoted e +++ ")".
Proof. intros H. unfold group_pieces. rewrite render_cons, render_app, (ex_render quoted e H). reflexivity. Qed.

Lemma condition_chunk (w : list piece) o : loose_first w -> (forall l, chunk l -> chunk (w ++ l)) -> chunk (opt_pieces (fun e => w ++ group_pieces e) o).
Proof. intros L C. destruct o as [e|]; [|apply chunk_nil]. cbn [opt_pieces]. apply C, group_chunk. Qed.
Lemma condition_loose (w : list piece) o : loose_first w -> w <> [] -> loose_first (opt_pieces (fun e => w ++ group_pieces e) o).
Proof. intros L N. destruct o as [e|]; [|exact I]. cbn [opt_pieces]. destruct w; [contradiction|exact L]. Qed.
Lemma condition_wf (w : list piece) o : forallb pwf w = true -> match o with Some e => ex_ok e = true | None => True end ->
  forallb pwf (opt_pieces (fun e => w ++ group_pieces e) o) = true.
Proof. intros W H. destruct o as [e|]; [|reflexivity]. cbn [opt_pieces]. now rewrite forallb_app, W, (group_wf e H). Qed.

Lemma name_wf n : quotable n = true -> quoted n || simple_name n = true -> (if quoted n then quotable n else simple_name n) = true.
Proof. intros H K. destruct (quoted n); [exact H|exact K]. Qed.
Definition condition_ok (o : option ex) : Prop := match o with Some e => ex_ok e = true | None => True end.

Lemma index_parts i : index_ok quoted i = true ->
  (if quoted (six_name i) then quotable (six_name i) else simple_name (six_name i)) = true /\ six_columns i <> [] /\
  (forall k, In k (six_columns i) -> (if quoted (fst k) then quotable (fst k) else simple_name (fst k)) = true) /\
  match six_where i with Some e => ex_fits e = true | None => True end /\ condition_ok (six_where i).
Proof.
  unfold index_ok. intros H. rewrite !andb_true_iff in H. destruct H as [[[[[H1 H2] H3] H4] H5] H6]. split; [now apply name_wf|].
  split; [intros E; rewrite E in H4; discriminate|]. split.
  - intros k K. rewrite forallb_forall in H5. specialize (H5 k K). apply andb_true_iff in H5 as [A B]. now apply name_wf.
  - split; destruct (six_where i) as [e|]; try exact H6; try exact I. now apply ex_fits_ok.
Qed.
Lemma comma_after l : chunk l -> chunk ([PChar ","; blank] ++ l).
Proof. intros C. apply chunk_after; [reflexivity|]. now apply chunk_after. Qed.
Lemma index_written schema table i : simple_name schema = true -> simple_name table = true -> index_ok quoted i = true -> written quoted (index_pieces schema table i).
Proof.
  intros S N K. destruct (index_parts i K) as (H1 & H2 & H3 & _ & H4). split.
  - unfold index_pieces. rewrite !forallb_app. cbn [forallb ProofPieces.pwf]. rewrite S, N, H1. rewrite sep_wf, condition_wf; [now destruct (six_unique i)|reflexivity|exact H4|reflexivity|].
    intros [n d] C. unfold index_key_pieces. cbn [forallb ProofPieces.pwf fst snd]. specialize (H3 _ C). cbn [fst] in H3. rewrite H3. now destruct d.
  - apply chunk_linked. unfold index_pieces. intros r R L. rewrite <- !app_assoc. cbn [app linked_after class_of adjacent andb].
    assert (G : linked_after Loose ((sep_pieces [PChar ","; blank] index_key_pieces (six_columns i)) ++ (PChar ")" :: opt_pieces (fun e => blank :: PWord "WHERE" :: blank :: group_pieces e) (six_where i)) ++ r) = true).
    { apply sep_chunk; [apply comma_after|reflexivity|discriminate| |reflexivity|].
      - intros [n []]; fixed.
      - cbn [app linked_after class_of adjacent andb]. destruct (six_where i) as [e|]; [|exact L]. cbn [opt_pieces app linked_after class_of adjacent andb]. now apply group_chunk. }
    cbn [app] in G |- *. destruct (six_unique i); exact G.
Qed.
Lemma index_render schema table i : index_ok quoted i = true -> render (index_pieces schema table i) = index_def quoted schema table i.
Proof.
  intros K. destruct (index_parts i K) as (_ & _ & _ & _ & H4). unfold index_pieces, index_def. rewrite !render_app, sep_render.
  assert (E : map (fun x => render (index_key_pieces x)) (six_columns i) = map (fun c : string * bool => ident quoted (fst c) +++ (if snd c then " DESC" else "")) (six_columns i)).
  { apply map_ext. intros [n []]; reflexivity. }
  rewrite E.
  assert (W : render (opt_pieces (fun e => [blank; PWord "WHERE"; blank] ++ group_pieces e) (six_where i)) = match six_where i with Some e => " WHERE (" +++ pg_text quoted e +++ ")" | None => "" end).
  { destruct (six_where i) as [e|]; [|reflexivity]. cbn [opt_pieces]. rewrite render_app, (group_render e H4). reflexivity. }
  rewrite W. change (render [PChar ","; blank]) with ", ".
  assert (H : render [PWord "INDEX"; blank; PName (six_name i); blank; PWord "ON"; blank; PBare schema; PDot; PBare table; blank; PWord "USING"; blank; PBare "btree"; blank; PChar "("] =
              "INDEX " +++ ident quoted (six_name i) +++ " ON " +++ schema +++ "." +++ table +++ " USING btree (").
  { rewrite !render_cons. cbn [ptext]. change (render []) with "". reflexivity. }
  rewrite H. destruct (six_unique i); rewrite ?sapp_assoc; reflexivity.
Qed.

(** ** Foreign keys *)
Definition action_pieces (a : action) : list piece :=
  match a with
  | NoAction => [PWord "NO"; blank; PWord "ACTION"] | Restrict => [PWord "RESTRICT"] | Cascade => [PWord "CASCADE"] | SetNull => [PWord "SET"; blank; PWord "NULL"]
  end.
Definition fk_pieces (schema table : string) (f : shown_fk) : list piece :=
  [PWord "ALTER"; blank; PWord "TABLE"; blank; PWord "ONLY"; blank; PBare schema; PDot; PBare table; blank; PWord "ADD"; blank; PWord "CONSTRAINT"; blank; PBare (sf_name f); blank;
   PWord "FOREIGN"; blank; PWord "KEY"; blank; PChar "("; PBare (sf_column f); PChar ")"; blank; PWord "REFERENCES"; blank; PBare (sf_schema f); PDot; PBare (sf_table f); PChar "(";
   PBare (sf_ref_column f); PChar ")"; blank; PWord "ON"; blank; PWord "UPDATE"; blank] ++ action_pieces (sf_update f) ++ [blank; PWord "ON"; blank; PWord "DELETE"; blank] ++
  action_pieces (sf_delete f).
Lemma fk_words schema table f : words (fk_pieces schema table f) = fk_tokens schema table f.
Proof. destruct f as [a b c d e [] []]; reflexivity. Qed.
Lemma action_wf a : forallb pwf (action_pieces a) = true.
Proof. now destruct a. Qed.
Lemma action_render a : render (action_pieces a) = action_words a.
Proof. now destruct a. Qed.
Lemma action_chunk a : chunk (action_pieces a).
Proof. destruct a; fixed. Qed.
Lemma fk_written schema table f : simple_name schema = true -> simple_name table = true -> fk_ok f = true -> written quoted (fk_pieces schema table f).
Proof.
  unfold fk_ok. intros S N K. rewrite !andb_true_iff in K. destruct K as [[[[K1 K2] K3] K4] K5]. split.
  - unfold fk_pieces. rewrite !forallb_app. cbn [forallb ProofPieces.pwf]. rewrite S, N, K1, K2, K3, K4, K5, !action_wf. reflexivity.
  - apply chunk_linked. unfold fk_pieces. intros r R L. rewrite <- !app_assoc. cbn [app linked_after class_of adjacent andb]. apply action_chunk; [reflexivity|].
    cbn [app linked_after class_of adjacent andb]. now apply action_chunk.
Qed.
Lemma fk_render schema table f : render (fk_pieces schema table f) =
  foreign_def schema table (sf_name f) (sf_column f) (sf_schema f) (sf_table f) (sf_ref_column f) (action_words (sf_update f)) (action_words (sf_delete f)).
Proof.
  unfold fk_pieces, foreign_def. rewrite !render_app, !action_render, !render_cons. cbn [ptext]. change (render []) with "". rewrite !sapp_assoc. reflexivity.
Qed.

(** ** Policies *)
Definition policy_pieces (table : string) (p : shown_policy) : list piece :=
  [PWord "CREATE"; blank; PWord "POLICY"; blank; PBare (SpecShown.sp_name p); blank; PWord "ON"; blank; PBare table; blank; PWord "AS"; blank;
   PWord (if SpecShown.sp_permissive p then "PERMISSIVE" else "RESTRICTIVE"); blank; PWord "FOR"; blank; PWord (command_word (sp_command p)); blank; PWord "TO"; blank] ++
  sep_pieces [PChar ","] (fun n => [PBare n]) (sp_roles p) ++
  opt_pieces (fun e => [blank; PWord "USING"; blank] ++ group_pieces e) (SpecShown.sp_using p) ++
  opt_pieces (fun e => [blank; PWord "WITH"; blank; PWord "CHECK"; blank] ++ group_pieces e) (sp_check p).
Lemma policy_words table p : words (policy_pieces table p) = policy_tokens table p.
Proof.
  unfold policy_pieces, policy_tokens. rewrite !words_app, sep_words.
  assert (M : forall l, flat_map (fun y => words [PChar ","] ++ words [PBare y]) l = more_names l) by (intros l; reflexivity).
  assert (E : match sp_roles p with [] => [] | x :: l => words [PBare x] ++ flat_map (fun y => words [PChar ","] ++ words [PBare y]) l end =
              match sp_roles p with [] => [] | r :: l => name_token r :: more_names l end) by now destruct (sp_roles p).
  rewrite E. clear E.
  assert (U : words (opt_pieces (fun e => [blank; PWord "USING"; blank] ++ group_pieces e) (SpecShown.sp_using p)) = option_tokens (fun e => T "USING" "using" :: group_tokens e) (SpecShown.sp_using p)).
  { destruct (SpecShown.sp_using p); [|reflexivity]. cbn [opt_pieces option_tokens]. now rewrite words_app, group_words. }
  assert (C : words (opt_pieces (fun e => [blank; PWord "WITH"; blank; PWord "CHECK"; blank] ++ group_pieces e) (sp_check p)) =
              option_tokens (fun e => T "WITH" "with" :: T "CHECK" "check" :: group_tokens e) (sp_check p)).
  { destruct (sp_check p); [|reflexivity]. cbn [opt_pieces option_tokens]. now rewrite words_app, group_words. }
  rewrite U, C. destruct (SpecShown.sp_permissive p), (sp_command p); reflexivity.
Qed.
Lemma policy_parts p : policy_ok p = true -> simple_name (SpecShown.sp_name p) = true /\ sp_roles p <> [] /\ forallb simple_name (sp_roles p) = true /\
  condition_ok (SpecShown.sp_using p) /\ condition_ok (sp_check p).
Proof.
  unfold policy_ok. intros H. rewrite !andb_true_iff in H. destruct H as [[[[H1 H2] H3] H4] H5]. repeat split; try assumption.
  - intros E. rewrite E in H2. discriminate.
  - destruct (SpecShown.sp_using p); [|exact I]. now apply ex_fits_ok.
  - destruct (sp_check p); [|exact I]. now apply ex_fits_ok.
Qed.
Lemma policy_written table p : simple_name table = true -> policy_ok p = true -> written quoted (policy_pieces table p).
Proof.
  intros N K. destruct (policy_parts p K) as (H1 & H2 & H3 & H4 & H5). split.
  - unfold policy_pieces. rewrite !forallb_app. cbn [forallb ProofPieces.pwf]. rewrite N, H1. rewrite sep_wf, !condition_wf; try reflexivity; try assumption.
    + now destruct (SpecShown.sp_permissive p), (sp_command p).
    + intros r R. rewrite forallb_forall in H3. cbn. now rewrite (H3 r R).
  - apply chunk_linked. unfold policy_pieces. intros r R L. rewrite <- !app_assoc. cbn [app linked_after class_of adjacent andb].
    apply sep_chunk; [intros l C; now apply chunk_after|reflexivity|discriminate|intros n; fixed| |].
    + destruct (SpecShown.sp_using p), (sp_check p); reflexivity || exact R.
    + destruct (SpecShown.sp_using p), (sp_check p); cbn [opt_pieces app linked_after class_of adjacent andb]; try exact L;
        rewrite <- ?app_assoc; try (apply group_chunk; [assumption||reflexivity|]); cbn [opt_pieces app linked_after class_of adjacent andb]; try assumption; now apply group_chunk.
Qed.
Lemma strip_roles l : l <> [] -> forallb simple_name l = true -> strip_braces ("{" +++ join "," l +++ "}") = join "," l.
Proof.
  intros _ _. unfold strip_braces. cbn [String.append].
  generalize (join "," l). clear l. intros s. induction s as [|c s IH]; [reflexivity|]. cbn [String.append trim_suffix].
  rewrite IH. destruct (String.eqb_spec (String c (s +++ "}")) "}") as [E|_]; [|reflexivity]. injection E as _ E. destruct s; discriminate.
Qed.
Lemma policy_render table p : policy_ok p = true -> render (policy_pieces table p) = policy_def table (catalogue_policy quoted p).
Proof.
  intros K. destruct (policy_parts p K) as (H1 & H2 & H3 & H4 & H5). unfold policy_pieces, policy_def, catalogue_policy.
  cbn [Catalog.pp_name Catalog.pp_permissive Catalog.pp_cmd Catalog.pp_roles Catalog.pp_using Catalog.pp_check]. rewrite (strip_roles _ H2 H3). rewrite !render_app, sep_render.
  assert (E : map (fun x => render [PBare x]) (sp_roles p) = sp_roles p).
  { rewrite <- map_id. apply map_ext. intros x. apply sapp_nil_r. }
  rewrite E. change (render [PChar ","]) with ",".
  assert (U : render (opt_pieces (fun e => [blank; PWord "USING"; blank] ++ group_pieces e) (SpecShown.sp_using p)) =
              match option_map (fun e => grouped (pg_text quoted e)) (SpecShown.sp_using p) with Some u => " USING " +++ u | None => "" end).
  { destruct (SpecShown.sp_using p) as [e|]; [|reflexivity]. cbn [opt_pieces option_map]. now rewrite render_app, (group_render e H4). }
  assert (C : render (opt_pieces (fun e => [blank; PWord "WITH"; blank; PWord "CHECK"; blank] ++ group_pieces e) (sp_check p)) =
              match option_map (fun e => grouped (pg_text quoted e)) (sp_check p) with Some u => " WITH CHECK " +++ u | None => "" end).
  { destruct (sp_check p) as [e|]; [|reflexivity]. cbn [opt_pieces option_map]. now rewrite render_app, (group_render e H5). }
  rewrite U, C, !render_cons. cbn [ptext]. change (render []) with "". destruct (SpecShown.sp_permissive p), (sp_command p); rewrite ?sapp_assoc; reflexivity.
Qed.

(** ** Views *)
Definition field_pieces (f : string * string) : list piece := [PName (fst f); PDot; PName (snd f)].
Definition view_pieces (v : shown_view) : list piece :=
  [PWord "CREATE"; blank; PWord "VIEW"; blank; PBare (sv_schema v); PDot; PBare (sv_view v); blank; PWord "AS"; blank; PWord "SELECT"; blank] ++
  sep_pieces [PChar ","; blank] field_pieces (sv_columns v) ++ [blank; PWord "FROM"; blank; PName (sv_from v)] ++
  opt_pieces (fun e => [blank; PWord "WHERE"; blank] ++ group_pieces e) (sv_where v).
Lemma view_words v : words (view_pieces v) = view_tokens v.
Proof.
  unfold view_pieces, view_tokens. rewrite !words_app, sep_words.
  assert (E : match sv_columns v with [] => [] | x :: l => words (field_pieces x) ++ flat_map (fun y => words [PChar ","; blank] ++ words (field_pieces y)) l end =
              match sv_columns v with [] => [] | f :: l => field_tokens f ++ flat_map (fun f => comma :: field_tokens f) l end) by reflexivity.
  rewrite E. clear E.
  assert (E : words (opt_pieces (fun e => [blank; PWord "WHERE"; blank] ++ group_pieces e) (sv_where v)) =
              option_tokens (fun e => T "WHERE" "where" :: group_tokens e) (sv_where v)).
  { destruct (sv_where v) as [e|]; [|reflexivity]. cbn [opt_pieces option_tokens]. rewrite words_app, group_words. reflexivity. }
  rewrite E. reflexivity.
Qed.
Lemma view_parts v : view_ok v = true -> simple_name (sv_schema v) = true /\ simple_name (sv_view v) = true /\ simple_name (sv_from v) = true /\ sv_columns v <> [] /\
  (forall f, In f (sv_columns v) -> simple_name (fst f) = true /\ simple_name (snd f) = true) /\ condition_ok (sv_where v) /\
  match sv_where v with Some e => ex_single e = true | None => True end.
Proof.
  unfold view_ok. intros H. rewrite !andb_true_iff in H. destruct H as [[[[[H1 H2] H3] H4] H5] H6]. repeat split; try assumption.
  - intros E. rewrite E in H4. discriminate.
  - rewrite forallb_forall in H5. specialize (H5 _ H). now apply andb_true_iff in H5.
  - rewrite forallb_forall in H5. specialize (H5 _ H). now apply andb_true_iff in H5.
  - destruct (sv_where v); [|exact I]. apply andb_true_iff in H6 as [H6 _]. now apply ex_fits_ok.
  - destruct (sv_where v); [|exact I]. now apply andb_true_iff in H6 as [_ H6].
Qed.
Lemma view_written v : view_ok v = true -> written quoted (view_pieces v).
Proof.
  intros K. destruct (view_parts v K) as (H1 & H2 & H3 & _ & H5 & H6 & _). split.
  - unfold view_pieces. rewrite !forallb_app. cbn [forallb ProofPieces.pwf]. rewrite H1, H2, (simple_wf quoted _ H3). rewrite sep_wf, condition_wf; try reflexivity; try assumption.
    intros [a b] C. destruct (H5 _ C) as [A B]. cbn [fst snd] in A, B. unfold field_pieces. cbn [forallb ProofPieces.pwf fst snd]. now rewrite (simple_wf quoted a A), (simple_wf quoted b B).
  - apply chunk_linked. unfold view_pieces. intros r R L. rewrite <- !app_assoc. cbn [app linked_after class_of adjacent andb].
    apply sep_chunk; [apply comma_after|reflexivity|discriminate|intros f; fixed|reflexivity|].
    cbn [linked_after class_of adjacent andb]. destruct (sv_where v) as [e|]; cbn [opt_pieces app].
    + cbn [linked_after class_of adjacent andb]. now apply group_chunk.
    + apply link_loose; [discriminate|exact R|exact L].
Qed.

(** What the export does to the text of a view. *)
Definition tight (s : string) : Prop := has_char newline s = false /\ forall b r, collapse_spaces b (s +++ r) = s +++ collapse_spaces false r.
Lemma tight_app a b : tight a -> tight b -> tight (a +++ b).
Proof. intros [N A] [M B]. split; [rewrite has_char_app, N, M; reflexivity|]. intros k r. now rewrite !sapp_assoc, A, B. Qed.
Lemma tight_blank a b : tight a -> tight b -> tight (a +++ " " +++ b).
Proof. intros [N A] [M B]. split; [rewrite !has_char_app, N, M; reflexivity|]. intros k r. rewrite !sapp_assoc, A. cbn. now rewrite B. Qed.
Definition dense (s : string) : bool := match s with EmptyString => false | _ => all_chars (fun c => negb (is_space c)) s end.
Lemma tight_dense s : dense s = true -> tight s.
Proof.
  intros H. assert (W : word s).
  { destruct s as [|c s]; [discriminate|]. split; [discriminate|exact H]. }
  split.
  - destruct W as [_ W]. clear H. induction s as [|c s IH]; [reflexivity|]. cbn [all_chars has_char] in *. apply andb_true_iff in W as [A B]. rewrite (IH B), orb_false_r.
    destruct (Ascii.eqb_spec c newline) as [->|_]; [discriminate|reflexivity].
  - intros b r. now apply collapse_word.
Qed.
Lemma simple_dense n : simple_name n = true -> dense n = true.
Proof.
  intros H. destruct (simple_parts n H) as (c & s & -> & H1 & H2 & _). unfold dense.
  assert (A : forall d, name_char d = true -> negb (is_space d) = true) by (intros [[] [] [] [] [] [] [] []]; vm_compute; congruence).
  cbn [all_chars]. apply andb_true_iff. split; [apply A; now apply name_start_char|]. rewrite all_chars_in in *. auto.
Qed.
Lemma tight_ident n : simple_name n = true -> tight (ident quoted n).
Proof.
  intros H. apply simple_dense in H. unfold ident. destruct (quoted n); [|now apply tight_dense].
  apply tight_app; [now apply tight_dense|]. apply tight_app; [now apply tight_dense|now apply tight_dense].
Qed.
Lemma tight_literal s : all_chars plain_text_char s = true -> single_blanks false s = true -> tight ("'" +++ s +++ "'").
Proof.
  intros P S. split.
  - change (has_char newline ("'" +++ (s +++ "'")) = false). rewrite !has_char_app. change (has_char newline "'") with false. rewrite orb_false_r. cbn [orb]. clear S.
    induction s as [|c s IH]; [reflexivity|]. cbn [all_chars has_char] in *. apply andb_true_iff in P as [A B]. rewrite (IH B), orb_false_r.
    destruct (Ascii.eqb_spec c newline) as [->|_]; [discriminate|reflexivity].
  - intros b r. assert (G : forall k, single_blanks k s = true -> collapse_spaces k (s +++ "'" +++ r) = s +++ "'" +++ collapse_spaces false r).
    { clear. induction s as [|c s IH]; intros k H; [reflexivity|]. cbn [single_blanks String.append collapse_spaces] in *. destruct (Ascii.eqb c " ").
      - apply andb_true_iff in H as [K H]. apply negb_true_iff in K. subst k. now rewrite (IH true H).
      - now rewrite (IH false H). }
    rewrite !sapp_assoc. change (collapse_spaces b ("'" +++ (s +++ "'" +++ r))) with ("'" +++ collapse_spaces false (s +++ "'" +++ r)). now rewrite (G false S).
Qed.
Lemma tight_number z : (0 <=? z)%Z = true -> tight (show_Z z).
Proof.
  intros H. apply Z.leb_le in H. destruct (ProofNumerals.show_Z_digits z H) as [D N]. apply tight_dense. unfold dense. destruct (show_Z z) as [|c s]; [contradiction|].
  apply all_chars_in. intros d I. specialize (D d I). unfold digit, among in D. cbn in D. repeat (destruct D as [<-|D]; [reflexivity|]). contradiction.
Qed.
Lemma tight_text e : ex_ok e = true -> ex_single e = true -> tight (pg_text quoted e).
Proof.
  induction e; cbn [ex_ok ex_single pg_text]; intros H S; rewrite ?andb_true_iff in H; rewrite ?andb_true_iff in S.
  - now apply tight_ident.
  - apply tight_app; [now apply tight_ident|]. apply tight_app; [now apply tight_dense|now apply tight_ident].
  - now apply tight_number.
  - rewrite <- sapp_assoc. change "'::text" with ("'" +++ "::text"). rewrite <- sapp_assoc. rewrite (sapp_assoc "'" s "'"). apply tight_app; [now apply tight_literal|now apply tight_dense].
  - now apply tight_literal.
  - apply tight_app; [now apply tight_dense|]. apply tight_app; [now apply tight_ident|now apply tight_dense].
  - apply tight_app; [now apply tight_dense|]. apply tight_app; [now apply IHe|now apply tight_dense].
  - apply tight_blank; [now apply IHe1|]. apply tight_blank; [destruct op; now apply tight_dense|now apply IHe2].
  - change " IS NULL" with (" " +++ "IS" +++ " " +++ "NULL"). apply tight_blank; [now apply IHe|]. apply tight_blank; now apply tight_dense.
  - change " IS NOT NULL" with (" " +++ "IS" +++ " " +++ "NOT" +++ " " +++ "NULL"). apply tight_blank; [now apply IHe|]. apply tight_blank; [now apply tight_dense|]. apply tight_blank; now apply tight_dense.
  - change " AND " with (" " +++ "AND" +++ " "). rewrite !sapp_assoc. apply tight_blank; [now apply IHe1|]. apply tight_blank; [now apply tight_dense|now apply IHe2].
  - change " OR " with (" " +++ "OR" +++ " "). rewrite !sapp_assoc. apply tight_blank; [now apply IHe1|]. apply tight_blank; [now apply tight_dense|now apply IHe2].
Qed.

(** [settles a b]: without line breaks and repeated blanks [a] is [b]. *)
Definition settles (a b : string) : Prop := forall k r, collapse_spaces k (remove_char newline a +++ r) = b +++ collapse_spaces false r.
Lemma remove_none s : has_char newline s = false -> remove_char newline s = s.
Proof.
  induction s as [|c s IH]; [reflexivity|]. cbn [has_char remove_char]. intros H. apply orb_false_iff in H as [A B]. now rewrite A, (IH B).
Qed.
Lemma settles_tight s : tight s -> settles s s.
Proof. intros [N S] k r. rewrite (remove_none s N). apply S. Qed.
Lemma settles_gap a a' g b b' : separates g -> settles a a' -> settles b b' -> settles (a +++ g +++ b) (a' +++ " " +++ b').
Proof.
  intros G A B k r. rewrite !remove_char_app, !sapp_assoc, A. rewrite (collapse_sep g _ G). cbn. now rewrite B.
Qed.
Lemma settles_join g (l : list string) : separates g -> l <> [] -> Forall tight l -> settles (join ("," +++ g) l) (join ", " l).
Proof.
  intros G N F. destruct l as [|x l]; [contradiction|]. clear N. revert x F. induction l as [|y l IH]; intros x F; inversion F as [|? ? X F']; subst; [now apply settles_tight|].
  change (join ("," +++ g) (x :: y :: l)) with (x +++ ("," +++ g) +++ join ("," +++ g) (y :: l)). change (join ", " (x :: y :: l)) with (x +++ ", " +++ join ", " (y :: l)).
  replace (x +++ ("," +++ g) +++ join ("," +++ g) (y :: l)) with ((x +++ ",") +++ g +++ join ("," +++ g) (y :: l)) by now rewrite ?sapp_assoc.
  replace (x +++ ", " +++ join ", " (y :: l)) with ((x +++ ",") +++ " " +++ join ", " (y :: l)) by now rewrite ?sapp_assoc.
  apply settles_gap; [exact G| |now apply IH]. apply settles_tight. apply tight_app; [exact X|now apply tight_dense].
Qed.
Lemma clean_settles a b : settles a b -> (exists c r, a = String c r /\ is_space c = false) -> clean_definition (" " +++ a +++ ";") = b.
Proof.
  intros S (c & r & E & N). unfold clean_definition. change (ascii_of_nat 10) with newline. rewrite <- (sapp_nil_r (a +++ ";")).
  rewrite (trim_space_pad " " (a +++ ";") "" c ";"); try reflexivity.
  - rewrite remove_char_app. change (remove_char newline ";") with ";". rewrite trim_suffix_app by discriminate. rewrite <- (sapp_nil_r (remove_char newline a)). rewrite S. apply sapp_nil_r.
  - now rewrite E.
  - exact N.
  - now rewrite last_char_app.
Qed.
Lemma view_render v : view_ok v = true -> render (view_pieces v) = view_ddl (sv_schema v) (sv_view v) (Catalog.pv_definition (catalogue_view quoted v)).
Proof.
  intros K. destruct (view_parts v K) as (H1 & H2 & H3 & H4 & H5 & H6 & H7). unfold view_ddl, catalogue_view. cbn [Catalog.pv_definition].
  set (F := map (fun c : string * string => ident quoted (fst c) +++ "." +++ ident quoted (snd c)) (sv_columns v)).
  set (W := match sv_where v with Some e => nl +++ "  WHERE (" +++ pg_text quoted e +++ ")" | None => "" end).
  set (W' := match sv_where v with Some e => " WHERE (" +++ pg_text quoted e +++ ")" | None => "" end).
  assert (C : clean_definition (" SELECT " +++ join ("," +++ nl +++ "    ") F +++ nl +++ "   FROM " +++ ident quoted (sv_from v) +++ W +++ ";") =
              "SELECT" +++ " " +++ join ", " F +++ " " +++ "FROM" +++ " " +++ ident quoted (sv_from v) +++ W').
  { replace (" SELECT " +++ join ("," +++ nl +++ "    ") F +++ nl +++ "   FROM " +++ ident quoted (sv_from v) +++ W +++ ";")
      with (" " +++ ("SELECT" +++ " " +++ join ("," +++ (nl +++ "    ")) F +++ (nl +++ "   ") +++ "FROM" +++ " " +++ ident quoted (sv_from v) +++ W) +++ ";") by (rewrite !sapp_assoc; reflexivity).
    apply clean_settles; [|now eexists "S"%char, _].
    apply settles_gap; [split; reflexivity|apply settles_tight; now apply tight_dense|].
    apply settles_gap; [split; reflexivity| |].
    - apply settles_join; [split; reflexivity| |].
      + unfold F. now destruct (sv_columns v).
      + unfold F. apply Forall_forall. intros x X. apply in_map_iff in X as (f & <- & I). destruct (H5 f I) as [A B].
        apply tight_app; [now apply tight_ident|]. apply tight_app; [now apply tight_dense|now apply tight_ident].
    - apply settles_gap; [split; reflexivity|apply settles_tight; now apply tight_dense|].
      unfold W, W'. destruct (sv_where v) as [e|].
      + change (nl +++ "  WHERE (" +++ pg_text quoted e +++ ")") with ((nl +++ "  ") +++ ("WHERE" +++ " " +++ "(" +++ pg_text quoted e +++ ")")).
        change (" WHERE (" +++ pg_text quoted e +++ ")") with (" " +++ ("WHERE" +++ " " +++ "(" +++ pg_text quoted e +++ ")")).
        apply settles_gap; [split; reflexivity|apply settles_tight; now apply tight_ident|]. apply settles_tight. apply tight_blank; [now apply tight_dense|].
        apply tight_app; [now apply tight_dense|]. apply tight_app; [now apply tight_text|now apply tight_dense].
      + rewrite sapp_nil_r. apply settles_tight. now apply tight_ident. }
  rewrite C. unfold view_pieces. rewrite !render_app, sep_render.
  assert (E : map (fun x => render (field_pieces x)) (sv_columns v) = F).
  { unfold F. apply map_ext. intros [a b]. unfold field_pieces. rewrite !render_cons. cbn [ptext fst snd]. change (render []) with "". now rewrite sapp_nil_r. }
  rewrite E. change (render [PChar ","; blank]) with ", ".
  assert (X : render (opt_pieces (fun e => [blank; PWord "WHERE"; blank] ++ group_pieces e) (sv_where v)) = W').
  { unfold W'. destruct (sv_where v) as [e|]; [|reflexivity]. cbn [opt_pieces]. rewrite render_app, (group_render e H6). reflexivity. }
  rewrite X, !render_cons. cbn [ptext]. change (render []) with "". rewrite ?sapp_nil_r, ?sapp_assoc. reflexivity.
Qed.
End Statements.
