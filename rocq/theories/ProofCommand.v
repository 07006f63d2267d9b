(** Proofs about command lines: what is parsed is what is written. *)
From Coq Require Import String Ascii List ZArith Bool Lia.
From Verif Require Import GoStr SchemaParse Ast Generator Runner AdapterPostgres CommandLine SpecUrl SpecCommand.
Import ListNotations.
Local Open Scope string_scope.

Lemma option_like_spec w : option_like w <-> argument_is_option w = true.
Proof.
  split.
  - intros (c & r & N & [-> | ->]); cbn.
    + destruct (Ascii.eqb c "-") eqn:E; [apply Ascii.eqb_eq in E; contradiction|].
      destruct c as [[] [] [] [] [] [] [] []]; try reflexivity. destruct N. reflexivity.
    + destruct (Ascii.eqb c "-") eqn:E; [apply Ascii.eqb_eq in E; contradiction|]. reflexivity.
  - intros H. destruct w as [|a w]; [discriminate|].
    destruct (Ascii.eqb_spec a "-") as [->|N].
    2:{ exfalso. revert H. cbn. destruct a as [[] [] [] [] [] [] [] []]; try discriminate. destruct N. reflexivity. }
    destruct w as [|b w]; [discriminate|].
    destruct (Ascii.eqb_spec b "-") as [->|N].
    + destruct w as [|c w]; [discriminate|]. cbn in H. apply negb_true_iff, Ascii.eqb_neq in H.
      exists c, w. auto.
    + exists b, w. auto.
Qed.

Lemma not_option_like w : ~ option_like w <-> argument_is_option w = false.
Proof. rewrite option_like_spec. destruct (argument_is_option w); split; try easy; intros H; destruct H; reflexivity. Qed.

(** ** Numbers *)
Lemma digit_of_spec c : digit_of c = if decimal c then Some (Z.of_N (code c) - 48)%Z else None.
Proof.
  unfold digit_of, decimal, code. cbv zeta.
  destruct ((48 <=? N_of_ascii c) && (N_of_ascii c <=? 57))%N eqn:E;
    destruct ((48 <=? Z.of_N (N_of_ascii c)) && (Z.of_N (N_of_ascii c) <=? 57))%Z eqn:F; try reflexivity; exfalso.
  - apply andb_true_iff in E. apply andb_false_iff in F. rewrite !N.leb_le in E. rewrite !Z.leb_gt in F. lia.
  - apply andb_true_iff in F. apply andb_false_iff in E. rewrite !Z.leb_le in F. rewrite !N.leb_gt in E. lia.
Qed.

Lemma decimal_code c : decimal c = true -> (0 <= Z.of_N (code c) - 48 <= 9)%Z.
Proof. unfold decimal. rewrite andb_true_iff, !N.leb_le. lia. Qed.

Lemma decimal_number_le s acc : (0 <= acc)%Z -> every decimal s = true -> (acc <= decimal_number acc s)%Z.
Proof.
  revert acc. induction s as [|c s IH]; intros acc A H; cbn [decimal_number]; [lia|].
  cbn [every] in H. apply andb_true_iff in H. destruct H as [D E]. apply decimal_code in D.
  specialize (IH (10 * acc + (Z.of_N (code c) - 48))%Z ltac:(lia) E). lia.
Qed.

Lemma uint_digits_spec s acc z : (0 <= acc)%Z -> (acc < 2 ^ 64)%Z ->
  (uint_digits acc s = Some z <-> every decimal s = true /\ (decimal_number acc s < 2 ^ 64)%Z /\ z = decimal_number acc s).
Proof.
  revert acc. induction s as [|c s IH]; intros acc A B; cbn [uint_digits decimal_number every].
  - split; [intros [= <-]; auto|]. intros (_ & _ & ->). reflexivity.
  - rewrite digit_of_spec. destruct (decimal c) eqn:D; cbn [andb].
    2:{ split; [discriminate|]. intros [H _]. discriminate H. }
    pose proof (decimal_code c D) as K.
    destruct (10 * acc + (Z.of_N (code c) - 48) <? 2 ^ 64)%Z eqn:E.
    + apply Z.ltb_lt in E. apply IH; lia.
    + apply Z.ltb_ge in E. split; [discriminate|]. intros (F & G & _).
      pose proof (decimal_number_le s (10 * acc + (Z.of_N (code c) - 48))%Z ltac:(lia) F). lia.
Qed.

Lemma parse_uint_spec s z : parse_uint s = Some z <-> port_text s /\ z = decimal_number 0 s.
Proof.
  unfold port_text. destruct s as [|c s].
  - split; [discriminate|]. intros [[H _] _]. contradiction.
  - unfold parse_uint. rewrite uint_digits_spec by lia. split; [intros (A & B & C)|intros [(_ & A & B) C]]; repeat split; auto; discriminate.
Qed.

(** ** Values *)
Section Reading.
Variable unquote : string -> option string.

Lemma stands_spec v x : stands_for unquote v x <-> unquote_if_possible unquote v = Some x.
Proof.
  unfold stands_for, quoted. destruct v as [|c v]; cbn [unquote_if_possible].
  - split; [intros [[[r E] _]|[_ ->]]; [discriminate E|reflexivity]|]. intros [= <-]. right. split; [|reflexivity].
    intros [r E]. discriminate E.
  - destruct (Ascii.eqb_spec c (ascii_of_nat 34)) as [->|N].
    + split; [intros [[_ E]|[K _]]; [exact E|]|].
      * destruct K. eauto.
      * intros E. left. split; [eauto|exact E].
    + split; [intros [[[r E] _]|[_ ->]]; [injection E as E1 _; contradiction|reflexivity]|].
      intros [= <-]. right. split; [|reflexivity]. intros [r E]. injection E as E1 _. contradiction.
Qed.

Definition member_of (n : string) : member :=
  if String.eqb n "user" then MUser else if String.eqb n "password" then MPassword
  else if String.eqb n "host" then MHost else if String.eqb n "port" then MPort
  else if String.eqb n "socket" then MSocket else if String.eqb n "file" then MFile
  else if String.eqb n "password-prompt" then MPrompt else if String.eqb n "dry-run" then MDryRun
  else if String.eqb n "export" then MExport else if String.eqb n "skip-drop" then MSkipDrop
  else if String.eqb n "help" then MHelp else MVersion.

Definition value_of (n v : string) : value :=
  match unquote_if_possible unquote v with
  | Some x => if String.eqb n "port" then VPort (decimal_number 0 x) else VText x
  | None => VText ""
  end.

Definition setting (i : item) : list (member * value) :=
  match i with
  | Give n v _ => [(member_of n, value_of n v)]
  | Turn n => [(member_of n, VTrue)]
  | Name _ => []
  end.
Definition settings (l : list item) : list (member * value) := flat_map setting l.

(** The table of the model has the documented options. *)
Definition valued (n : string) (c : option ascii) : flag :=
  mkFlag (member_of n) c n (if String.eqb n "port" then TUint else TString).

Lemma documented_name m n c : In (n, c) (documented m) -> In n (map fst (documented m)).
Proof. intros H. apply in_map_iff. exists (n, c). auto. Qed.

Lemma set_valued n c v : (exists x, stands_for unquote v x /\ (n = "port" -> port_text x)) ->
  set_value unquote (valued n c) v = Some (value_of n v).
Proof.
  intros (x & S & P). apply stands_spec in S. unfold set_value, value_of. rewrite S. cbn [fl_type valued].
  destruct (String.eqb_spec n "port") as [E|E]; [|reflexivity].
  assert (G : parse_uint x = Some (decimal_number 0 x)) by (apply parse_uint_spec; auto). now rewrite G.
Qed.

Lemma valued_type n c : fl_type (valued n c) <> TBool.
Proof. cbn. destruct (String.eqb n "port"); discriminate. Qed.

Lemma long_attached m n v : In n (map fst (documented m)) ->
  exists c, named_option m ("--" ++ n ++ "=" ++ v) = Some (valued n c, Some v) /\
            argument_is_option ("--" ++ n ++ "=" ++ v) = true.
Proof.
  destruct m; cbn; intros H; repeat (destruct H as [<-|H]; [eexists; split; reflexivity|]); destruct H.
Qed.
Lemma long_alone m n : In n (map fst (documented m)) ->
  exists c, named_option m ("--" ++ n) = Some (valued n c, None) /\ argument_is_option ("--" ++ n) = true.
Proof.
  destruct m; cbn; intros H; repeat (destruct H as [<-|H]; [eexists; split; reflexivity|]); destruct H.
Qed.
Lemma switch_alone m n : In n (documented_switches m) ->
  named_option m ("--" ++ n) = Some (mkFlag (member_of n) None n TBool, None) /\ argument_is_option ("--" ++ n) = true.
Proof.
  destruct m; cbn; intros H; repeat (destruct H as [<-|H]; [split; reflexivity|]); destruct H.
Qed.
Lemma short_form m n c v : In (n, Some c) (documented m) ->
  named_option m ("-" ++ String c v) =
    Some (valued n (Some c), match v with EmptyString => None | String "=" x => Some x | x => Some x end) /\
  argument_is_option ("-" ++ String c v) = true.
Proof.
  destruct m; cbn; intros H;
    repeat (destruct H as [H|H]; [first [discriminate H | injection H as <- <-; split; reflexivity]|]); destruct H.
Qed.

(** ** What is written is parsed *)
Definition joined (r : list (member * value) * list string) (o : option (list (member * value) * list string)) :=
  option_map (fun s => ((fst r ++ fst s)%list, (snd r ++ snd s)%list)) o.

Lemma parse_item m i rest : proper unquote m i ->
  parse_args unquote m (spell i ++ rest) = joined (setting i, names [i]) (parse_args unquote m rest).
Proof.
  destruct i as [n v s|n|w]; cbn [proper setting names flat_map app].
  - intros [P Q].
    destruct s as [| |c|c|c]; cbn [proper_style] in P; cbn [spell app parse_args].
    + destruct (long_attached m n v P) as (k & E & F). rewrite E, F. pose proof (set_valued n k v Q) as S.
      pose proof (valued_type n k). destruct (fl_type (valued n k)); [| |contradiction]; rewrite S; reflexivity.
    + destruct P as [P V]. apply not_option_like in V. destruct (long_alone m n P) as (k & E & F). rewrite E, F, V.
      pose proof (set_valued n k v Q) as S.
      pose proof (valued_type n k). destruct (fl_type (valued n k)); [| |contradiction]; rewrite S; reflexivity.
    + destruct P as (P & V & K). destruct (short_form m n c v P) as (E & F). rewrite E, F.
      pose proof (set_valued n (Some c) v Q) as S. pose proof (valued_type n (Some c)) as T.
      assert (A : match v with EmptyString => None | String "=" x => Some x | x => Some x end = Some v).
      { destruct v as [|a v]; [contradiction|]. destruct (Ascii.eqb_spec a "=") as [->|N]; [destruct K; eauto|].
        destruct a as [[] [] [] [] [] [] [] []]; try reflexivity. destruct N. reflexivity. }
      rewrite A. destruct (fl_type (valued n (Some c))); [| |contradiction]; rewrite S; reflexivity.
    + destruct (short_form m n c ("=" ++ v) P) as (E & F). rewrite E, F.
      pose proof (set_valued n (Some c) v Q) as S. pose proof (valued_type n (Some c)) as T. cbn [append].
      destruct (fl_type (valued n (Some c))); [| |contradiction]; rewrite S; reflexivity.
    + destruct P as [P V]. apply not_option_like in V. destruct (short_form m n c "" P) as (E & F). rewrite E, F, V.
      pose proof (set_valued n (Some c) v Q) as S. pose proof (valued_type n (Some c)) as T.
      destruct (fl_type (valued n (Some c))); [| |contradiction]; rewrite S; reflexivity.
  - intros P. destruct (switch_alone m n P) as [E F]. cbn [spell app parse_args]. rewrite E, F. reflexivity.
  - intros P. apply not_option_like in P. cbn [spell app parse_args]. rewrite P. reflexivity.
Qed.

Lemma parse_items m l : Forall (proper unquote m) l ->
  parse_args unquote m (flat_map spell l) = Some (settings l, names l).
Proof.
  induction 1 as [|i l P _ IH]; [reflexivity|]. cbn [flat_map]. rewrite (parse_item m i _ P), IH.
  cbn. unfold settings, names. cbn [flat_map]. now rewrite app_nil_r.
Qed.

(** ** What is parsed is written *)
Definition documented_flag (f : flag) (m : mode) : Prop :=
  (fl_type f <> TBool /\ f = valued (fl_long f) (fl_short f) /\ In (fl_long f, fl_short f) (documented m)) \/
  (f = mkFlag (member_of (fl_long f)) None (fl_long f) TBool /\ In (fl_long f) (documented_switches m)).

Lemma flags_documented m f : In f (flags_of m) -> documented_flag f m.
Proof.
  destruct m; cbn; intros H;
    repeat (destruct H as [<-|H];
            [first [left; split; [discriminate|]; split; [reflexivity|]; cbn; tauto
                   |right; split; [reflexivity|]; cbn; tauto]|]); destruct H.
Qed.

Lemma split_first_spec c s a b : split_first c s = Some (a, b) -> s = a ++ String c b.
Proof.
  revert a. induction s as [|x s IH]; cbn [split_first]; intros a H; [discriminate|].
  destruct (Ascii.eqb_spec x c) as [->|N]; [injection H as <- <-; reflexivity|].
  destruct (split_first c s) as [[y z]|]; [|discriminate]. injection H as <- <-. cbn. now rewrite (IH y eq_refl).
Qed.

Lemma find_long_spec m n f : find_long m n = Some f -> documented_flag f m /\ fl_long f = n.
Proof.
  unfold find_long. intros H. apply find_some in H. destruct H as [A B]. apply String.eqb_eq in B.
  split; [now apply flags_documented|exact B].
Qed.
Lemma find_short_spec m c f : find_short m c = Some f -> documented_flag f m /\ fl_short f = Some c.
Proof.
  unfold find_short. intros H. apply find_some in H. destruct H as [A B]. split; [now apply flags_documented|].
  destruct (fl_short f) as [d|]; [|discriminate]. apply Ascii.eqb_eq in B. now subst.
Qed.

(** An argument that names an option, written out. *)
Lemma named_spec m a f o : argument_is_option a = true -> named_option m a = Some (f, o) ->
  documented_flag f m /\
  ((a = "--" ++ fl_long f ++ "=" ++ match o with Some v => v | None => "" end /\ o <> None) \/
   (a = "--" ++ fl_long f /\ o = None) \/
   (exists c, fl_short f = Some c /\
      ((a = "-" ++ String c "" /\ o = None) \/
       exists v, o = Some v /\ (a = "-" ++ String c ("=" ++ v) \/
                                a = "-" ++ String c v /\ v <> "" /\ ~ exists r, v = String "=" r)))).
Proof.
  intros A H. destruct a as [|x a]; [discriminate|].
  destruct (Ascii.eqb_spec x "-") as [->|N].
  2:{ exfalso. revert A. cbn. destruct x as [[] [] [] [] [] [] [] []]; try discriminate. destruct N. reflexivity. }
  destruct a as [|y a]; [discriminate|].
  destruct (Ascii.eqb_spec y "-") as [->|N].
  - cbn [named_option] in H. destruct (split_first "=" a) as [[n v]|] eqn:S.
    + destruct (find_long m n) as [g|] eqn:F; [|discriminate]. cbn in H. injection H as <- <-.
      destruct (find_long_spec _ _ _ F) as [D L]. split; [exact D|]. left. split; [|discriminate].
      rewrite L. cbn. now rewrite (split_first_spec _ _ _ _ S).
    + destruct (find_long m a) as [g|] eqn:F; [|discriminate]. cbn in H. injection H as <- <-.
      destruct (find_long_spec _ _ _ F) as [D L]. split; [exact D|]. right. left. rewrite L. auto.
  - assert (E : named_option m (String "-" (String y a)) =
        option_map (fun f => (f, match a with EmptyString => None | String "=" v => Some v | v => Some v end)) (find_short m y)).
    { cbn [named_option]. destruct y as [[] [] [] [] [] [] [] []]; try reflexivity. destruct N. reflexivity. }
    rewrite E in H. destruct (find_short m y) as [g|] eqn:F; [|discriminate]. cbn [option_map] in H. injection H as <- <-.
    destruct (find_short_spec _ _ _ F) as [D L]. split; [exact D|]. right. right. exists y. split; [exact L|].
    destruct a as [|z a]; [left; auto|]. right.
    destruct (Ascii.eqb_spec z "=") as [->|M]; [exists a; auto|].
    exists (String z a). split; [|right; split; [reflexivity|split; [discriminate|]]].
    + destruct z as [[] [] [] [] [] [] [] []]; try reflexivity. destruct M. reflexivity.
    + intros [r K]. injection K as K _. contradiction.
Qed.

Lemma set_value_spec f v x : fl_type f <> TBool -> f = valued (fl_long f) (fl_short f) ->
  set_value unquote f v = Some x ->
  (exists y, stands_for unquote v y /\ (fl_long f = "port" -> port_text y)) /\
  x = value_of (fl_long f) v /\ fl_member f = member_of (fl_long f).
Proof.
  intros T E H. unfold set_value in H. unfold value_of. destruct (unquote_if_possible unquote v) as [y|] eqn:U; [|discriminate].
  assert (M : fl_member f = member_of (fl_long f)) by (rewrite E at 1; reflexivity).
  assert (K : fl_type f = if String.eqb (fl_long f) "port" then TUint else TString) by (rewrite E at 1; reflexivity).
  rewrite K in H. destruct (String.eqb_spec (fl_long f) "port") as [P|P].
  - destruct (parse_uint y) as [z|] eqn:Z; [|discriminate]. cbn in H. injection H as <-. apply parse_uint_spec in Z.
    destruct Z as [Z1 ->]. split; [exists y; split; [now apply stands_spec|auto]|auto].
  - injection H as <-. split; [exists y; split; [now apply stands_spec|contradiction]|auto].
Qed.

Lemma style_of m f a v : documented_flag f m -> fl_type f <> TBool ->
  ((a = "--" ++ fl_long f ++ "=" ++ v) \/
   (exists c, fl_short f = Some c /\ (a = "-" ++ String c ("=" ++ v) \/
                                a = "-" ++ String c v /\ v <> "" /\ ~ exists r, v = String "=" r))) ->
  exists s, proper_style m (fl_long f) v s /\ spell (Give (fl_long f) v s) = [a].
Proof.
  intros [(_ & E & I)|(E & _)] T H; [|rewrite E in T; contradiction].
  destruct H as [->|(c & C & [->|(-> & V & W)])].
  - exists LongEqual. split; [|reflexivity]. cbn. eapply documented_name; eauto.
  - exists (ShortEqual c). split; [|reflexivity]. cbn. now rewrite <- C.
  - exists (ShortJoined c). split; [|reflexivity]. cbn. rewrite <- C. auto.
Qed.

Lemma parsed_written m args l r : parse_args unquote m args = Some (l, r) ->
  exists items, Forall (proper unquote m) items /\ flat_map spell items = args /\ l = settings items /\ r = names items.
Proof.
  remember (List.length args) as k eqn:K. assert (L : List.length args <= k) by lia. clear K.
  revert args l r L. induction k as [|k IH]; intros args l r L H.
  { destruct args; [|cbn in L; lia]. injection H as <- <-. exists []. auto. }
  destruct args as [|a rest]; [injection H as <- <-; exists []; auto|].
  cbn [List.length] in L. cbn [parse_args] in H.
  destruct (argument_is_option a) eqn:A.
  2:{ destruct (parse_args unquote m rest) as [[l' r']|] eqn:E; [|discriminate]. cbn in H. injection H as <- <-.
      destruct (IH rest l' r' ltac:(lia) E) as (items & P & S & -> & ->).
      exists (Name a :: items). split; [constructor; [now apply not_option_like|exact P]|]. cbn. rewrite S. auto. }
  destruct (named_option m a) as [[f o]|] eqn:N; [|discriminate].
  destruct (named_spec m a f o A N) as [D W].
  assert (step : (forall it rest' x l' r',
     spell it ++ rest' = a :: rest -> List.length rest' <= k -> proper unquote m it ->
     setting it = [(fl_member f, x)] -> names [it] = [] ->
     parse_args unquote m rest' = Some (l', r') -> l = (fl_member f, x) :: l' -> r = r' ->
     exists items, Forall (proper unquote m) items /\ flat_map spell items = a :: rest /\ l = settings items /\ r = names items)%list).
  { intros it rest' x l' r' S1 Ln P S2 S3 E -> ->. destruct (IH rest' l' r' Ln E) as (items & P' & S & -> & ->).
    exists (it :: items). split; [constructor; assumption|]. cbn [flat_map]. rewrite S. split; [exact S1|].
    unfold settings, names. cbn [flat_map]. rewrite S2. split; [reflexivity|].
    cbn in S3. rewrite app_nil_r in S3. rewrite S3. reflexivity. }
  destruct (fl_type f) eqn:T.
  1,2: assert (T' : fl_type f <> TBool) by (rewrite T; discriminate);
       (destruct D as [(D1 & D2 & D3)|(D1 & _)]; [|rewrite D1 in T; discriminate T]);
       assert (D : documented_flag f m) by (left; auto);
       destruct o as [v|].
  1,3: destruct (set_value unquote f v) as [x|] eqn:S; [|discriminate];
       destruct (parse_args unquote m rest) as [[l' r']|] eqn:E; [|discriminate]; cbn in H; injection H as <- <-;
       destruct (set_value_spec f v x T' D2 S) as (Q & -> & M);
       (destruct (style_of m f a v D T') as (s & Ps & Sp);
         [destruct W as [[W _]|[[_ W]|(c & C & [[_ W]|(v' & W & W')])]];
           [now left|discriminate W|discriminate W|right; exists c; injection W as <-; auto]|]);
       (eapply (step (Give (fl_long f) v s) rest (value_of (fl_long f) v) l' r');
         [rewrite Sp; reflexivity|lia|split; assumption|cbn; now rewrite M|reflexivity|exact E|reflexivity|reflexivity]).
  1,2: destruct rest as [|v rest]; [discriminate|]; destruct (argument_is_option v) eqn:V; [discriminate|];
       destruct (set_value unquote f v) as [x|] eqn:S; [|discriminate];
       destruct (parse_args unquote m rest) as [[l' r']|] eqn:E; [|discriminate]; cbn in H; injection H as <- <-;
       destruct (set_value_spec f v x T' D2 S) as (Q & -> & M); apply not_option_like in V;
       assert (P : exists s, proper_style m (fl_long f) v s /\ spell (Give (fl_long f) v s) = [a; v])
         by (destruct W as [[_ W]|[[W _]|(c & C & [[W _]|(v' & W & _)])]];
           [now destruct W
           |exists LongApart; split; [split; [eapply documented_name; eauto|exact V]|cbn; now rewrite W]
           |exists (ShortApart c); split; [split; [now rewrite <- C|exact V]|cbn; now rewrite W]
           |discriminate W]);
       destruct P as (s & Ps & Sp);
       (eapply (step (Give (fl_long f) v s) rest (value_of (fl_long f) v) l' r');
         [rewrite Sp; reflexivity|cbn in L; lia|split; assumption|cbn; now rewrite M|reflexivity|exact E|reflexivity|reflexivity]).
  destruct o as [v|]; [discriminate|].
  destruct D as [(D1 & _)|(D1 & D2)]; [contradiction|].
  destruct (parse_args unquote m rest) as [[l' r']|] eqn:E; [|discriminate]. cbn in H. injection H as <- <-.
  eapply (step (Turn (fl_long f)) rest VTrue l' r'); [|lia|exact D2| |reflexivity|exact E|reflexivity|reflexivity].
  - destruct W as [[_ W]|[[W _]|(c & C & _)]]; [now destruct W|cbn; now rewrite W|rewrite D1 in C; discriminate C].
  - cbn. rewrite D1. reflexivity.
Qed.
End Reading.
