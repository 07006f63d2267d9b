(** The texts of the PostgreSQL export in pieces. *)
From Coq Require Import String Ascii List ZArith Bool Lia.
From Verif Require Import GoStr GoStrFacts Ast Formatter Keywords Lexer SqlAst SchemaParse Catalog AdapterPostgres SpecPlan SpecPostgres SpecLexer SpecLayout SpecShown ProofOrder ProofReadEx
  ProofPieces ProofReadColumn ProofReadTable ProofReadRest.
Import ListNotations.
Local Open Scope string_scope.
Local Open Scope list_scope.

Definition loose_first (r : list piece) : Prop := match r with [] => True | p :: _ => class_of p = Loose end.
Definition chunk (l : list piece) : Prop := forall r, loose_first r -> linked_after Loose r = true -> linked_after Loose (l ++ r) = true.
Lemma loose_app a b : loose_first a -> loose_first b -> loose_first (a ++ b).
Proof. destruct a; [now intros|]. now intros. Qed.
Lemma chunk_app a b : chunk a -> chunk b -> loose_first b -> chunk (a ++ b).
Proof. intros A B F r R L. rewrite <- app_assoc. apply A; [now apply loose_app|now apply B]. Qed.
Lemma chunk_nil : chunk [].
Proof. now intros r _ L. Qed.
(** Any class but that of a dot may be followed by a loose piece. *)
Lemma link_loose k r : k <> Dotted -> loose_first r -> linked_after Loose r = true -> linked_after k r = true.
Proof.
  destruct r as [|p r]; [reflexivity|]. cbn [loose_first linked_after]. intros K E. rewrite E. intros L. apply andb_true_iff in L as [_ L]. rewrite L, andb_true_r. now destruct k.
Qed.
Lemma chunk_linked l : chunk l -> linked l = true.
Proof. intros C. unfold linked. rewrite <- (app_nil_r l). now apply C. Qed.
(** A fixed piece. *)
Ltac fixed := intros ? ? ?; cbn;
  repeat match goal with |- linked_after Loose _ = true => assumption || fail 1 | |- _ => apply link_loose; [discriminate|assumption|assumption] end.

Section Text.
Variable quoted : string -> bool.
Notation render := (render quoted).
Notation pwf := (pwf quoted).
Notation pg_text := (pg_text quoted).
Notation ident := (ident quoted).
Notation "a +++ b" := (String.append a b) (at level 60, right associativity).

Definition blank : piece := PBlank " ".
Definition opt_pieces {A} (f : A -> list piece) (o : option A) : list piece := match o with Some x => f x | None => [] end.

Lemma render_cons p l : render (p :: l) = ptext quoted p +++ render l.
Proof. reflexivity. Qed.
Lemma words_cons p l : words (p :: l) = ptoken p ++ words l.
Proof. reflexivity. Qed.

(** ** Expressions *)
Fixpoint ex_pieces (e : ex) : list piece :=
  match e with
  | EColumn n => [PName n]
  | EField t n => [PName t; PDot; PName n]
  | EInt z => [PNum z]
  | EText s => [PText s; PCast; PWord "text"]
  | EString s => [PText s]
  | EAsText n => [PChar "("; PName n; PChar ")"; PCast; PWord "text"]
  | EGroup e => PChar "(" :: ex_pieces e ++ [PChar ")"]
  | ECompare o a b => ex_pieces a ++ POp o :: ex_pieces b
  | ENull e => ex_pieces e ++ [blank; PWord "IS"; blank; PWord "NULL"]
  | ENotNull e => ex_pieces e ++ [blank; PWord "IS"; blank; PWord "NOT"; blank; PWord "NULL"]
  | EAnd a b => ex_pieces a ++ blank :: PWord "AND" :: blank :: ex_pieces b
  | EOr a b => ex_pieces a ++ blank :: PWord "OR" :: blank :: ex_pieces b
  end.
Lemma plain_once s : all_chars plain_text_char s = true -> quote_twice s = s.
Proof.
  induction s as [|c s IH]; [reflexivity|]. cbn [all_chars quote_twice]. intros H. apply andb_true_iff in H as [H1 H2]. rewrite (IH H2).
  destruct (Ascii.eqb_spec c "'") as [->|N]; [discriminate|reflexivity].
Qed.
Lemma plain_text s : all_chars plain_text_char s = true -> all_chars text_char s = true.
Proof.
  rewrite !all_chars_in. intros H c C. specialize (H c C). unfold plain_text_char in H. rewrite !andb_true_iff in H. tauto.
Qed.
Lemma simple_quotable n : simple_name n = true -> quotable n = true.
Proof.
  intros H. destruct (simple_parts n H) as (c & s & -> & H1 & H2 & _). unfold quotable. apply andb_true_iff. split; [reflexivity|].
  assert (A : forall d, name_char d = true -> quotable_char d = true) by (intros [[] [] [] [] [] [] [] []]; vm_compute; congruence).
  cbn [all_chars]. apply andb_true_iff. split; [apply A; now apply name_start_char|]. rewrite all_chars_in in *. auto.
Qed.
Lemma simple_wf n : simple_name n = true -> (if quoted n then quotable n else simple_name n) = true.
Proof. intros H. destruct (quoted n); [now apply simple_quotable|exact H]. Qed.

Lemma ex_render e : ex_ok e = true -> render (ex_pieces e) = pg_text e.
Proof.
  induction e; cbn [ex_ok ex_pieces SpecShown.pg_text]; intros H; rewrite ?andb_true_iff in H; rewrite ?render_cons, ?render_app; rewrite ?render_cons; cbn [ptext]; rewrite ?render_app;
    rewrite ?render_cons; cbn [ptext].
  - apply sapp_nil_r.
  - change (render []) with "". now rewrite sapp_nil_r.
  - apply sapp_nil_r.
  - rewrite plain_once by exact H. change (render []) with "". now rewrite ?sapp_assoc, ?sapp_nil_r.
  - rewrite plain_once by exact H. change (render []) with "". now rewrite ?sapp_assoc, ?sapp_nil_r.
  - change (render []) with "". now rewrite ?sapp_assoc, ?sapp_nil_r.
  - rewrite IHe by exact H. reflexivity.
  - rewrite IHe1, IHe2 by tauto. now rewrite ?sapp_assoc, ?sapp_nil_r.
  - rewrite IHe by tauto. reflexivity.
  - rewrite IHe by tauto. reflexivity.
  - rewrite IHe1, IHe2 by tauto. reflexivity.
  - rewrite IHe1, IHe2 by tauto. reflexivity.
Qed.
Lemma ex_words e : words (ex_pieces e) = ex_tokens e.
Proof.
  induction e; cbn [ex_pieces ex_tokens]; rewrite ?words_cons, ?words_app; rewrite ?words_cons, ?IHe, ?IHe1, ?IHe2; try reflexivity.
Qed.
Lemma ex_wf e : ex_ok e = true -> forallb pwf (ex_pieces e) = true.
Proof.
  induction e; cbn [ex_ok ex_pieces]; intros H; rewrite ?andb_true_iff in H; rewrite ?forallb_app; cbn [forallb ProofPieces.pwf]; rewrite ?forallb_app; cbn [forallb ProofPieces.pwf];
    rewrite ?IHe, ?IHe1, ?IHe2 by tauto; rewrite ?simple_wf by tauto; try reflexivity.
  - now rewrite H.
  - now rewrite (plain_text s H).
  - now rewrite (plain_text s H).
Qed.
Lemma ex_chunk e : chunk (ex_pieces e).
Proof.
  induction e; cbn [ex_pieces]; try (fixed; fail).
  - intros r R L. cbn [app linked_after class_of adjacent andb]. rewrite <- app_assoc. apply IHe; [reflexivity|exact L].
  - apply chunk_app; [exact IHe1| |reflexivity]. intros r R L. cbn [app linked_after class_of adjacent andb]. now apply IHe2.
  - apply chunk_app; [exact IHe|fixed|reflexivity].
  - apply chunk_app; [exact IHe|fixed|reflexivity].
  - apply chunk_app; [exact IHe1| |reflexivity]. intros r R L. cbn [app linked_after class_of adjacent andb]. now apply IHe2.
  - apply chunk_app; [exact IHe1| |reflexivity]. intros r R L. cbn [app linked_after class_of adjacent andb]. now apply IHe2.
Qed.

(** ** Columns *)
Definition sized_pieces (n : Z) : list piece := [PChar "("; PNum n; PChar ")"].
Definition base_pieces (b : base_type) : list piece :=
  match b with
  | BWord w => [PWord w]
  | BDouble => [PWord "double"; blank; PWord "precision"]
  | BVarying n => [PWord "character"; blank; PWord "varying"] ++ opt_pieces sized_pieces n
  | BChar n => PWord "character" :: sized_pieces n
  | BBit n => PWord "bit" :: sized_pieces n
  end.
Definition zone_pieces (zone : bool) : list piece :=
  if zone then [blank; PWord "with"; blank; PWord "time"; blank; PWord "zone"] else [].
Definition type_pieces (t : shown_type) : list piece :=
  match t with
  | TBase b => base_pieces b
  | TUser w => [PWord w]
  | TArray b => base_pieces b ++ [PChar "["; PChar "]"]
  | TSerial w => [PWord (serial_name w)]
  | TTimestamp z => PWord "timestamp" :: zone_pieces z
  | TTime z => PWord "time" :: zone_pieces z
  end.
Definition text_type_pieces (ty : string) : list piece :=
  if String.eqb ty "character varying" then [PWord "character"; blank; PWord "varying"] else [PWord ty].
Definition default_pieces (d : shown_default) : list piece :=
  match d with
  | DInt z => [PNum z]
  | DText s ty => [PText s; PCast] ++ text_type_pieces ty
  | DBool b => [PWord (if b then "true" else "false")]
  | DCurrentTimestamp => [PWord "CURRENT_TIMESTAMP"]
  | DNow => [PWord "now"; PChar "("; PChar ")"]
  end.
Definition identity_pieces (a : bool) : list piece :=
  [blank; PWord "GENERATED"; blank] ++ (if a then [PWord "ALWAYS"] else [PWord "BY"; blank; PWord "DEFAULT"]) ++ [blank; PWord "AS"; blank; PWord "IDENTITY"].
Definition check_pieces (k : shown_check) : list piece :=
  [blank; PWord "CHECK"; blank; PChar "("] ++ ex_pieces (sk_expr k) ++ [PChar ")"] ++
  (if sk_no_inherit k then [blank; PWord "NO"; blank; PWord "INHERIT"] else []).
Definition column_pieces (u : bool) (c : shown_column) : list piece :=
  [PQuoted (sc_name c); blank] ++ type_pieces (sc_type c) ++ (if u then [blank; PWord "UNIQUE"] else []) ++
  (if sc_required c then [blank; PWord "NOT"; blank; PWord "NULL"] else []) ++
  opt_pieces (fun d => [blank; PWord "DEFAULT"; blank] ++ default_pieces d) (sc_default c) ++
  opt_pieces identity_pieces (sc_always c) ++ opt_pieces check_pieces (sc_check c).

Ltac in_list H := cbv [one_word_types integer_words text_types app In] in H; repeat (destruct H as [<-|H]); try contradiction.

Lemma type_words t : type_ok t = true -> words (type_pieces t) = type_tokens t.
Proof.
  assert (B : forall b, base_ok b = true -> words (base_pieces b) = base_tokens b).
  { intros [w| |[m|]|m|m] Ho; try reflexivity. cbn [base_ok] in Ho. apply mem_in in Ho. in_list Ho; reflexivity. }
  destruct t as [b|w|b|w|[]|[]]; cbn [type_ok]; intros Ho; try reflexivity.
  - now apply B.
  - apply mem_in in Ho. in_list Ho; reflexivity.
  - cbn [type_pieces type_tokens]. rewrite words_app, (B b Ho). reflexivity.
  - apply mem_in in Ho. in_list Ho; reflexivity.
Qed.
Lemma length_nonneg n : length_ok n = true -> (0 <=? n)%Z = true.
Proof. unfold length_ok. intros H. apply andb_true_iff in H as [H _]. apply Z.leb_le. apply Z.ltb_lt in H. lia. Qed.
Lemma type_wf t : type_ok t = true -> forallb pwf (type_pieces t) = true.
Proof.
  assert (B : forall b, base_ok b = true -> forallb pwf (base_pieces b) = true).
  { intros [w| |[m|]|m|m] Ho; cbn [base_ok] in Ho; try reflexivity.
    - apply mem_in in Ho. in_list Ho; reflexivity.
    - cbn -[keyword_ok]. now rewrite (length_nonneg m Ho).
    - cbn -[keyword_ok]. now rewrite (length_nonneg m Ho).
    - cbn -[keyword_ok]. now rewrite (length_nonneg m Ho). }
  destruct t as [b|w|b|w|[]|[]]; cbn [type_ok]; intros Ho; try reflexivity.
  - now apply B.
  - apply mem_in in Ho. in_list Ho; reflexivity.
  - cbn [type_pieces]. rewrite forallb_app, (B b Ho). reflexivity.
  - apply mem_in in Ho. in_list Ho; reflexivity.
Qed.
Lemma type_chunk t : chunk (type_pieces t).
Proof.
  assert (B : forall b, chunk (base_pieces b)) by (intros [w| |[m|]|m|m]; fixed).
  destruct t as [b|w|b|w|[]|[]]; try (fixed; fail); [apply B|]. apply chunk_app; [apply B|fixed|reflexivity].
Qed.

Lemma default_words d : default_ok d = true -> words (default_pieces d) = default_tokens d.
Proof.
  destruct d as [z|s ty|[]| |]; cbn [default_ok]; intros Ho; try reflexivity.
  apply andb_true_iff in Ho as [_ Ho]. apply mem_in in Ho. in_list Ho; reflexivity.
Qed.
Lemma default_wf d : default_ok d = true -> forallb pwf (default_pieces d) = true.
Proof.
  destruct d as [z|s ty|[]| |]; cbn [default_ok]; intros Ho; try reflexivity; apply andb_true_iff in Ho as [Ho H]; cbn -[keyword_ok]; rewrite Ho; try reflexivity.
  apply mem_in in H. in_list H; reflexivity.
Qed.
Lemma default_chunk d : chunk (default_pieces d).
Proof. destruct d as [z|s ty|[]| |]; try (fixed; fail). unfold default_pieces, text_type_pieces. destruct (String.eqb _ _); fixed. Qed.

Lemma column_words_of u c : column_ok c = true -> words (column_pieces u c) = name_token (sc_name c) :: column_tokens u c.
Proof.
  unfold column_ok. intros K. rewrite !andb_true_iff in K. destruct K as [[[K Ht] Hd] Hc].
  unfold column_pieces, column_tokens. rewrite !words_app, (type_words _ Ht).
  assert (E1 : words (if u then [blank; PWord "UNIQUE"] else []) = unique_tokens u) by now destruct u.
  assert (E2 : words (if sc_required c then [blank; PWord "NOT"; blank; PWord "NULL"] else []) = required_tokens (sc_required c)) by now destruct (sc_required c).
  assert (E3 : words (opt_pieces (fun d => [blank; PWord "DEFAULT"; blank] ++ default_pieces d) (sc_default c)) =
               option_tokens (fun d => T "DEFAULT" "default" :: default_tokens d) (sc_default c)).
  { destruct (sc_default c) as [d|]; [|reflexivity]. cbn [opt_pieces option_tokens]. rewrite words_app. apply andb_true_iff in Hd as [Hd _]. now rewrite (default_words d Hd). }
  assert (E4 : words (opt_pieces identity_pieces (sc_always c)) = option_tokens identity_tokens (sc_always c)) by (destruct (sc_always c) as [[]|]; reflexivity).
  assert (E5 : words (opt_pieces check_pieces (sc_check c)) = option_tokens (fun k => check_tokens (sk_expr k) (sk_no_inherit k)) (sc_check c)).
  { destruct (sc_check c) as [k|]; [|reflexivity]. cbn [opt_pieces option_tokens]. unfold check_pieces, check_tokens.
    rewrite !words_app, ex_words. destruct (sk_no_inherit k); reflexivity. }
  now rewrite E1, E2, E3, E4, E5.
Qed.
Lemma ex_fits_ok e : ex_fits e = true -> ex_ok e = true.
Proof. unfold ex_fits. intros H. now apply andb_true_iff in H as [H _]. Qed.
Lemma column_wf u c : column_ok c = true -> forallb pwf (column_pieces u c) = true.
Proof.
  unfold column_ok. intros K. rewrite !andb_true_iff in K. destruct K as [[[[[Q _] _] Ht] Hd] Hc].
  unfold column_pieces. rewrite !forallb_app, (type_wf _ Ht). cbn [forallb ProofPieces.pwf]. rewrite Q. rewrite !andb_true_iff. repeat split.
  - now destruct u.
  - now destruct (sc_required c).
  - destruct (sc_default c) as [d|]; [|reflexivity]. cbn [opt_pieces]. rewrite forallb_app. apply andb_true_iff in Hd as [Hd _]. now rewrite (default_wf d Hd).
  - destruct (sc_always c) as [[]|]; reflexivity.
  - destruct (sc_check c) as [k|]; [|reflexivity]. cbn [opt_pieces]. unfold check_pieces. rewrite !forallb_app, (ex_wf _ (ex_fits_ok _ Hc)). destruct (sk_no_inherit k); reflexivity.
Qed.
Lemma loose_if (b : bool) l : loose_first l -> loose_first (if b then l else []).
Proof. now destruct b. Qed.
Lemma loose_opt {A} (f : A -> list piece) o : (forall x, loose_first (f x)) -> loose_first (opt_pieces f o).
Proof. intros F. destruct o; [apply F|exact I]. Qed.
Lemma chunk_if (b : bool) l : chunk l -> chunk (if b then l else []).
Proof. destruct b; [auto|]. intros _. apply chunk_nil. Qed.
Lemma chunk_opt {A} (f : A -> list piece) o : (forall x, chunk (f x)) -> chunk (opt_pieces f o).
Proof. intros F. destruct o; [apply F|apply chunk_nil]. Qed.
Lemma check_chunk k : chunk (check_pieces k).
Proof.
  unfold check_pieces. intros r R L. rewrite <- !app_assoc. cbn [app linked_after class_of adjacent andb]. apply ex_chunk; [reflexivity|].
  cbn [linked_after class_of adjacent andb]. destruct (sk_no_inherit k); [|exact L]. cbn [app linked_after class_of adjacent andb]. now apply link_loose.
Qed.
Lemma chunk_after p l : class_of p = Loose -> chunk l -> chunk (p :: l).
Proof. intros E C r R L. cbn [app linked_after]. rewrite E. cbn [adjacent andb]. now apply C. Qed.
Lemma column_chunk u c : chunk (column_pieces u c).
Proof.
  unfold column_pieces.
  assert (C : chunk (type_pieces (sc_type c) ++ (if u then [blank; PWord "UNIQUE"] else []) ++ (if sc_required c then [blank; PWord "NOT"; blank; PWord "NULL"] else []) ++
    opt_pieces (fun d => [blank; PWord "DEFAULT"; blank] ++ default_pieces d) (sc_default c) ++ opt_pieces identity_pieces (sc_always c) ++ opt_pieces check_pieces (sc_check c))).
  { assert (U : chunk [blank; PWord "UNIQUE"]) by fixed. assert (N : chunk [blank; PWord "NOT"; blank; PWord "NULL"]) by fixed.
    assert (D : forall d, chunk ([blank; PWord "DEFAULT"; blank] ++ default_pieces d)) by (intros d r R L; cbn; now apply default_chunk).
    assert (A : forall a, chunk (identity_pieces a)) by (intros []; fixed).
    apply chunk_app; [apply type_chunk| |].
    apply chunk_app; [now apply chunk_if| |]. apply chunk_app; [now apply chunk_if| |]. apply chunk_app; [now apply chunk_opt| |].
    apply chunk_app; [now apply chunk_opt| |]. apply chunk_opt, check_chunk.
    all: repeat first [reflexivity | apply loose_if | apply loose_opt; intros ? | apply loose_app]. }
  intros r R L. cbn [app linked_after class_of adjacent andb]. now apply C.
Qed.

(** ** Lists *)
Section Lists.
Context {A : Type} (sep : list piece) (f : A -> list piece).
Definition sep_pieces (l : list A) : list piece :=
  match l with [] => [] | x :: l' => f x ++ flat_map (fun y => sep ++ f y) l' end.
Lemma sep_render l : render (sep_pieces l) = join (render sep) (map (fun x => render (f x)) l).
Proof.
  destruct l as [|x l]; [reflexivity|]. cbn [sep_pieces]. rewrite render_app. revert x. induction l as [|y l IH]; intros x; [apply sapp_nil_r|].
  cbn [flat_map map]. rewrite <- app_assoc, !render_app, IH. reflexivity.
Qed.
Lemma sep_wf l : forallb pwf sep = true -> (forall x, In x l -> forallb pwf (f x) = true) -> forallb pwf (sep_pieces l) = true.
Proof.
  intros S F. destruct l as [|x l]; [reflexivity|]. cbn [sep_pieces]. rewrite forallb_app, F by (now left). cbn [andb].
  assert (G : forall y, In y l -> forallb pwf (f y) = true) by (intros; apply F; now right). clear F. induction l as [|y l IH]; [reflexivity|].
  cbn [flat_map]. rewrite !forallb_app, S, G by (now left). apply IH. intros; apply G; now right.
Qed.
Lemma sep_chunk l : (forall l', chunk l' -> chunk (sep ++ l')) -> loose_first sep -> sep <> [] -> (forall x, chunk (f x)) -> chunk (sep_pieces l).
Proof.
  intros S L N F. destruct l as [|x l]; [apply chunk_nil|]. cbn [sep_pieces].
  assert (G : chunk (flat_map (fun y => sep ++ f y) l) /\ loose_first (flat_map (fun y => sep ++ f y) l)).
  { induction l as [|y l [I1 I2]]; [split; [apply chunk_nil|exact I]|]. cbn [flat_map]. split.
    - apply chunk_app; [now apply S|exact I1|exact I2].
    - rewrite <- app_assoc. destruct sep; [contradiction|]. exact L. }
  now apply chunk_app.
Qed.
Lemma sep_words l : words (sep_pieces l) = match l with [] => [] | x :: l' => words (f x) ++ flat_map (fun y => words sep ++ words (f y)) l' end.
Proof.
  destruct l as [|x l]; [reflexivity|]. cbn [sep_pieces]. rewrite words_app. f_equal. induction l as [|y l IH]; [reflexivity|]. cbn [flat_map]. now rewrite !words_app, IH.
Qed.
End Lists.

(** ** CREATE TABLE *)
Definition line_blank : piece := PBlank (nl +++ indent).
Definition key_pieces (l : list string) : list piece :=
  match l with
  | [] => []
  | _ => [PChar ","; line_blank; PWord "PRIMARY"; blank; PWord "KEY"; blank; PChar "("] ++ sep_pieces [PChar ","; blank] (fun n => [PQuoted n]) l ++ [PChar ")"]
  end.
Definition create_pieces (schema name : string) (unique : string -> bool) (cols : list shown_column) (key : list string) : list piece :=
  [PWord "CREATE"; blank; PWord "TABLE"; blank; PBare schema; PDot; PBare name; blank; PChar "("] ++
  sep_pieces [PChar ","] (fun c => line_blank :: column_pieces (unique (sc_name c)) c) cols ++
  key_pieces key ++ [PBlank nl; PChar ")"].

Lemma key_words l : words (key_pieces l) = key_tokens l.
Proof.
  destruct l as [|k l]; [reflexivity|]. unfold key_pieces, key_tokens. rewrite !words_app, sep_words. cbn [words flat_map ptoken app]. cbn -[keyword_token flat_map more_keys].
  change (keyword_token "PRIMARY") with (T "PRIMARY" "primary"). change (keyword_token "KEY") with (T "KEY" "key"). do 5 f_equal. f_equal.
  unfold more_keys. induction l as [|c l IH]; [reflexivity|]. cbn [map flat_map]. rewrite IH. reflexivity.
Qed.
Lemma create_words schema name unique cols key : cols <> [] -> forallb column_ok cols = true ->
  words (create_pieces schema name unique cols key) = table_tokens schema name unique cols key.
Proof.
  intros N K. unfold create_pieces, table_tokens. rewrite !words_app, sep_words, key_words. destruct cols as [|c l]; [contradiction|].
  cbn [forallb] in K. apply andb_true_iff in K as [K1 K2]. rewrite (words_cons line_blank (column_pieces _ c)), (column_words_of _ c K1).
  assert (E : flat_map (fun y => words [PChar ","] ++ words (line_blank :: column_pieces (unique (sc_name y)) y)) l = more_columns unique l).
  { unfold more_columns. induction l as [|d l IH]; [reflexivity|]. cbn [forallb] in K2. apply andb_true_iff in K2 as [K2 K3]. cbn [flat_map].
    rewrite (words_cons line_blank), (column_words_of _ d K2), (IH ltac:(discriminate) K3). reflexivity. }
  rewrite E, <- app_assoc. reflexivity.
Qed.
Lemma create_written schema name unique cols key : simple_name schema = true -> simple_name name = true ->
  forallb column_ok cols = true -> forallb quotable key = true -> written quoted (create_pieces schema name unique cols key).
Proof.
  intros S N K Q. split.
  - unfold create_pieces. rewrite !forallb_app. cbn [forallb ProofPieces.pwf]. rewrite S, N. rewrite sep_wf; [|reflexivity|].
    + destruct key as [|k l]; [reflexivity|]. unfold key_pieces. rewrite !forallb_app, sep_wf; [reflexivity|reflexivity|].
      intros x X. cbn [forallb ProofPieces.pwf]. rewrite forallb_forall in Q. now rewrite (Q x X).
    + intros c C. cbn [forallb]. rewrite forallb_forall in K. now rewrite (column_wf _ c (K c C)).
  - apply chunk_linked. unfold create_pieces. intros r R L. rewrite <- !app_assoc. cbn [app linked_after class_of adjacent andb].
    apply sep_chunk; [|reflexivity|discriminate| | |].
    + intros l C. now apply chunk_after.
    + intros c. apply chunk_after; [reflexivity|apply column_chunk].
    + destruct key; reflexivity.
    + destruct key as [|k l]; [exact L|]. unfold key_pieces. rewrite <- !app_assoc. cbn [app linked_after class_of adjacent andb].
      apply sep_chunk; [|reflexivity|discriminate|intros ?; fixed|reflexivity|exact L].
      intros l' C. apply chunk_after; [reflexivity|]. now apply chunk_after.
Qed.
Lemma create_render schema name unique cols key dump : map column_text dump = map (fun c => render (column_pieces (unique (sc_name c)) c)) cols ->
  render (create_pieces schema name unique cols key) = create_text (schema +++ "." +++ name) dump key.
Proof.
  intros E. unfold create_pieces, create_text. rewrite !render_app, sep_render.
  replace (map (fun x => render (line_blank :: column_pieces (unique (sc_name x)) x)) cols) with (map (fun c => nl +++ indent +++ column_text c) dump).
  2:{ transitivity (map (fun x => nl +++ indent +++ x) (map column_text dump)); [now rewrite map_map|]. rewrite E, map_map. apply map_ext. intros c. reflexivity. }
  replace (render (key_pieces key)) with match key with [] => "" | _ => "," +++ nl +++ indent +++ "PRIMARY KEY (" +++ dq +++ join (dq +++ ", " +++ dq) key +++ dq +++ ")" end.
  2:{ destruct key as [|k l]; [reflexivity|]. unfold key_pieces. rewrite !render_app, sep_render.
      assert (J : forall k l, dq +++ join (dq +++ ", " +++ dq) (k :: l) +++ dq = join ", " (map (fun n => render [PQuoted n]) (k :: l))).
      { clear. intros k l. revert k. induction l as [|k' l IH]; intros k; [cbn; now rewrite ?sapp_assoc, ?sapp_nil_r|]. specialize (IH k').
        cbn [join map] in IH |- *. rewrite <- IH. cbn [render fold_right ptext]. now rewrite ?sapp_assoc, ?sapp_nil_r. }
      change (render [PChar ","; blank]) with ", ". rewrite <- J. cbn -[join]. reflexivity || now rewrite ?sapp_assoc. }
  assert (Hd : render [PWord "CREATE"; blank; PWord "TABLE"; blank; PBare schema; PDot; PBare name; blank; PChar "("] = "CREATE TABLE " +++ (schema +++ "." +++ name) +++ " (").
  { cbn. now rewrite ?sapp_assoc. }
  rewrite Hd, ?sapp_assoc. reflexivity.
Qed.
End Text.
