(** Proofs about the four commands: what the options written mean for the run. *)
From Coq Require Import String Ascii List ZArith Bool Lia.
From Verif Require Import GoStr GoStrFacts SchemaParse Ast Generator SchemaText Runner SpecRunner ProofRunner AdapterPostgres
  CommandLine SpecUrl ProofUrl SpecCommand ProofCommand.
Import ListNotations.
Local Open Scope string_scope.

(** ** The URL of SQL Server *)
Definition sent_char (c : ascii) : bool := alphanumeric c || one_of "-_.~$&+,;=%" c.

Lemma hex_ok c : let n := N_of_ascii c in
  escaped_char (hex_digit (n / 16)) = true /\ escaped_char (hex_digit (n mod 16)) = true /\
  hex_value (hex_digit (n / 16)) = Some (n / 16)%N /\ hex_value (hex_digit (n mod 16)) = Some (n mod 16)%N.
Proof.
  destruct (unreserved c) eqn:U; [|destruct (Ascii.eqb c " ") eqn:S; [|exact (escape_step c U S)]].
  - clear U. destruct c as [[] [] [] [] [] [] [] []]; vm_compute; auto.
  - apply Ascii.eqb_eq in S. subst. vm_compute. auto.
Qed.

Lemma escape_every (keep ok : ascii -> bool) s :
  all_ascii (fun c => implb (keep c) (ok c)) = true -> all_ascii (fun c => implb (escaped_char c) (ok c)) = true ->
  every ok (escape keep s) = true.
Proof.
  intros K E. pose proof (char_sub _ _ K) as K'. pose proof (char_sub _ _ E) as E'.
  induction s as [|c s IH]; [reflexivity|]. cbn [escape]. destruct (keep c) eqn:C.
  - cbn [every]. now rewrite (K' c C), IH.
  - destruct (hex_ok c) as (A & B & _). cbv zeta. cbn [every]. rewrite (E' _ A), (E' _ B), IH.
    now rewrite (E' "%"%char eq_refl).
Qed.

Lemma decode_escaped (keep : ascii -> bool) s : keep "%"%char = false -> percent_decode (escape keep s) = Some s.
Proof.
  intros K. induction s as [|c s IH]; [reflexivity|]. cbn [escape]. destruct (keep c) eqn:C.
  - rewrite percent_decode_plain, IH; [reflexivity|]. apply Ascii.eqb_neq. intros ->. congruence.
  - destruct (hex_ok c) as (_ & _ & A & B). cbv zeta. cbn [percent_decode]. rewrite A, B, IH.
    rewrite <- (N.div_mod (N_of_ascii c) 16) by discriminate. now rewrite ascii_N_embedding.
Qed.

Lemma escape_id keep s : every keep s = true -> escape keep s = s.
Proof.
  induction s as [|c s IH]; [reflexivity|]. cbn [every escape]. rewrite andb_true_iff. intros [A B].
  now rewrite A, (IH B).
Qed.

Lemma decode_query s : percent_decode (spaces_for_plus (query_escape s)) = Some s.
Proof.
  induction s as [|c s IH]; cbn [query_escape]; [reflexivity|].
  destruct (unreserved c) eqn:U.
  - destruct (unreserved_escaped c U) as (_ & A & B). cbn [spaces_for_plus].
    assert (P : Ascii.eqb c "+" = false) by (apply Ascii.eqb_neq; intros ->; discriminate U).
    now rewrite P, percent_decode_plain, IH.
  - destruct (Ascii.eqb c " ") eqn:S.
    + apply Ascii.eqb_eq in S. subst. cbn [spaces_for_plus Ascii.eqb Bool.eqb].
      rewrite percent_decode_plain, IH; reflexivity.
    + destruct (hex_ok c) as (A & B & C & D). cbv zeta. cbn [spaces_for_plus].
      assert (P : forall x y, hex_value x = Some y -> Ascii.eqb x "+" = false).
      { intros x y H. apply Ascii.eqb_neq. intros ->. discriminate H. }
      rewrite (P _ _ C), (P _ _ D). cbn [Ascii.eqb Bool.eqb percent_decode]. rewrite C, D, IH.
      rewrite <- (N.div_mod (N_of_ascii c) 16) by discriminate. now rewrite ascii_N_embedding.
Qed.

Lemma fields_none c s : every (fun x => negb (Ascii.eqb x c)) s = true -> fields c s = [s].
Proof.
  induction s as [|x s IH]; [reflexivity|]. cbn [every fields]. rewrite andb_true_iff, negb_true_iff. intros [A B].
  now rewrite A, (IH B).
Qed.

Definition info_char (c : ascii) : bool := sent_char c || Ascii.eqb c ":".

Lemma userinfo_reads u p :
  every info_char (userinfo u p) = true /\
  exists U P, cut ":" (userinfo u p) = (U, P) /\ percent_decode U = Some u /\
              percent_decode match P with Some x => x | None => "" end = Some p.
Proof.
  unfold userinfo.
  destruct (String.eqb_spec u "") as [->|N]; [destruct (String.eqb_spec p "") as [->|N]|]; cbn [andb].
  - split; [reflexivity|]. exists "", None. repeat split.
  - split; [rewrite !every_app, (escape_every user_unescaped info_char p eq_refl eq_refl); reflexivity|].
    exists "", (Some (escape user_unescaped p)). split; [reflexivity|]. split; [reflexivity|]. now apply decode_escaped.
  - split; [rewrite !every_app, (escape_every user_unescaped info_char p eq_refl eq_refl), (escape_every user_unescaped info_char u eq_refl eq_refl); reflexivity|].
    exists (escape user_unescaped u), (Some (escape user_unescaped p)). split.
    + apply cut_app. exact (escape_every user_unescaped (fun c => negb (Ascii.eqb c ":")) u eq_refl eq_refl).
    + split; now apply decode_escaped.
Qed.

Local Notation nctl := (fun c => negb (control c)).
Local Notation ne x := (fun c => negb (Ascii.eqb c x)).

Lemma mssql_url_reads c : plain_host (cf_host c) -> (0 <= cf_port c)%Z ->
  read_sqlserver_url (mssql_url c) =
    Some (mkConnection (cf_user c) (cf_password c) (cf_host c) (show_Z (cf_port c)) (cf_database c)).
Proof.
  intros Hh Hp. unfold plain_host in Hh. pose proof (show_nat_decimal _ Hp) as Hd. clear Hp.
  unfold mssql_url. destruct (userinfo_reads (cf_user c) (cf_password c)) as (HI & U & P & EI & EU & EP).
  set (I := userinfo (cf_user c) (cf_password c)) in *. set (h := cf_host c) in *. set (port := show_Z (cf_port c)) in *.
  pose (sub := fun (f g : ascii -> bool) (s : string) (H : every f s = true) (E : all_ascii (fun c => implb (f c) (g c)) = true) =>
     every_impl f g s (char_sub f g E) H).
  assert (Hhp : every host_text_char (h ++ ":" ++ port) = true).
  { rewrite !every_app. cbn [every]. rewrite (sub _ host_text_char _ Hh eq_refl), (sub _ host_text_char _ Hd eq_refl). reflexivity. }
  rewrite (escape_id host_unescaped (h ++ ":" ++ port)) by exact (sub _ host_unescaped _ Hhp eq_refl).
  set (H := h ++ ":" ++ port) in *.
  pose proof (escape_chars (cf_database c)) as HD. set (D := query_escape (cf_database c)) in *.
  unfold read_sqlserver_url.
  assert (C : every nctl ("sqlserver://" ++ I ++ "@" ++ H ++ "?database=" ++ D) = true).
  { rewrite !every_app. rewrite (sub _ nctl I HI eq_refl), (sub _ nctl H Hhp eq_refl), (sub _ nctl D HD eq_refl). reflexivity. }
  rewrite C. cbn [negb].
  rewrite (cut_none "#").
  2:{ rewrite !every_app. rewrite (sub _ (ne "#"%char) I HI eq_refl), (sub _ (ne "#"%char) H Hhp eq_refl), (sub _ (ne "#"%char) D HD eq_refl). reflexivity. }
  replace ("sqlserver://" ++ I ++ "@" ++ H ++ "?database=" ++ D)
    with (("sqlserver://" ++ I ++ "@" ++ H) ++ String "?" ("database=" ++ D))
    by (rewrite !sapp_assoc; reflexivity).
  rewrite (cut_app "?").
  2:{ rewrite !every_app. rewrite (sub _ (ne "?"%char) I HI eq_refl), (sub _ (ne "?"%char) H Hhp eq_refl). reflexivity. }
  assert (Q : parameter "database" ("database=" ++ D) = [Some (cf_database c)]).
  { unfold parameter. rewrite fields_none.
    2:{ rewrite every_app, (sub _ (ne "&"%char) D HD eq_refl). reflexivity. }
    cbn [flat_map]. change ("database=" ++ D) with ("database" ++ String "=" D). rewrite cut_app by reflexivity.
    cbn [String.eqb Ascii.eqb Bool.eqb app]. unfold D. now rewrite decode_query. }
  rewrite Q. cbn [append].
  rewrite (cut_none "/" (I ++ String "@" H)).
  2:{ rewrite every_app. cbn [every]. rewrite (sub _ (ne "/"%char) I HI eq_refl), (sub _ (ne "/"%char) H Hhp eq_refl). reflexivity. }
  rewrite (cut_last_app "@" I H) by exact (sub _ (ne "@"%char) H Hhp eq_refl).
  rewrite EI, (sub _ user_char I HI eq_refl), (sub _ host_char H Hhp eq_refl). cbn [andb].
  unfold H. change (h ++ ":" ++ port) with (h ++ String ":" port).
  rewrite (cut_last_app ":" h port) by exact (sub _ (ne ":"%char) port Hd eq_refl).
  rewrite EU, EP, Hd. reflexivity.
Qed.

(** ** What the items say *)
Definition known : list string :=
  ["user"; "password"; "host"; "port"; "socket"; "file"; "password-prompt"; "dry-run"; "export"; "skip-drop"; "help"; "version"].

Lemma member_of_inj a b : In a known -> In b known -> member_eqb (member_of a) (member_of b) = String.eqb a b.
Proof.
  intros A B. cbn in A, B.
  repeat (destruct A as [<-|A]; [repeat (destruct B as [<-|B]; [reflexivity|]); destruct B|]). destruct A.
Qed.

Lemma documented_known m n : In n (map fst (documented m)) -> In n known.
Proof. destruct m; cbn; intuition. Qed.
Lemma switches_known m n : In n (documented_switches m) -> In n known.
Proof. destruct m; cbn; intuition. Qed.
Lemma documented_not_switch m n : In n (map fst (documented m)) -> In n (documented_switches m) -> False.
Proof.
  destruct m; cbn; intros A B; repeat (destruct A as [<-|A]; [repeat (destruct B as [B|B]; [discriminate B|]); destruct B|]); destruct A.
Qed.
Lemma proper_documented unquote m n v s : proper unquote m (Give n v s) -> In n (map fst (documented m)).
Proof.
  intros [P _]. destruct s; cbn in P; try exact P; try (destruct P as [P _]); try exact P; eapply documented_name; eauto.
Qed.

Section Says.
Variable unquote : string -> option string.
Variable m : mode.

Lemma last_settings l n : Forall (proper unquote m) l -> In n (map fst (documented m)) ->
  forall x, last_given unquote l n x ->
  last_value (member_of n) (settings unquote l) = Some (if String.eqb n "port" then VPort (decimal_number 0 x) else VText x).
Proof.
  intros P D x (a & v & s & b & -> & S & N). apply Forall_app in P. destruct P as [_ P].
  inversion P as [|? ? Pv Pb]; subst. clear P.
  assert (B : last_value (member_of n) (settings unquote b) = None).
  { clear - Pb N D. induction Pb as [|i b Pi _ IH]; [reflexivity|].
    assert (IH' : last_value (member_of n) (settings unquote b) = None)
      by (apply IH; intros v' s' I; apply (N v' s'); now right).
    unfold settings in *. cbn [flat_map].
    destruct i as [k v s|k|k]; cbn [setting app last_value]; rewrite ?IH'; [| |reflexivity].
    - rewrite member_of_inj; [|eapply documented_known, proper_documented, Pi|eapply documented_known, D].
      destruct (String.eqb_spec k n) as [->|K]; [|reflexivity]. exfalso. apply (N v s). now left.
    - rewrite member_of_inj; [|eapply switches_known, Pi|eapply documented_known, D].
      destruct (String.eqb_spec k n) as [->|K]; [|reflexivity]. exfalso. exact (documented_not_switch m n D Pi). }
  assert (G : last_value (member_of n) (settings unquote (Give n v s :: b)) =
              Some (if String.eqb n "port" then VPort (decimal_number 0 x) else VText x)).
  { unfold settings. cbn [flat_map setting app last_value]. fold (settings unquote b). rewrite B.
    rewrite member_of_inj, String.eqb_refl by (eapply documented_known, D).
    unfold value_of. apply stands_spec in S. now rewrite S. }
  induction a as [|i a IH]; [exact G|]. cbn [app]. unfold settings in *. cbn [flat_map].
  destruct (setting unquote i) as [|[k w] [|]] eqn:E; try (destruct i; discriminate E); cbn [app last_value]; rewrite IH; reflexivity.
Qed.

Lemma not_settings l n : Forall (proper unquote m) l -> In n known -> ~ In n (documented_switches m) -> not_given l n ->
  last_value (member_of n) (settings unquote l) = None.
Proof.
  intros Pb D Sw N. induction Pb as [|i b Pi _ IH]; [reflexivity|].
  assert (IH' : last_value (member_of n) (settings unquote b) = None)
    by (apply IH; intros v' s' I; apply (N v' s'); now right).
  unfold settings in *. cbn [flat_map].
  destruct i as [k v s|k|k]; cbn [setting app last_value]; rewrite ?IH'; [| |reflexivity].
  - rewrite member_of_inj; [|eapply documented_known, proper_documented, Pi|exact D].
    destruct (String.eqb_spec k n) as [->|K]; [|reflexivity]. exfalso. apply (N v s). now left.
  - rewrite member_of_inj; [|eapply switches_known, Pi|exact D].
    destruct (String.eqb_spec k n) as [->|K]; [|reflexivity]. exfalso. exact (Sw Pi).
Qed.

Lemma given_documented l n x : Forall (proper unquote m) l -> last_given unquote l n x -> In n (map fst (documented m)).
Proof.
  intros P (a & v & s & b & -> & _). apply Forall_app in P. destruct P as [_ P]. inversion P; subst.
  eapply proper_documented; eauto.
Qed.

Lemma texts_say l n d x : Forall (proper unquote m) l -> In n known -> ~ In n (documented_switches m) -> n <> "port" ->
  default_text m (member_of n) = d -> says unquote l n d x -> opts_text m (settings unquote l) (member_of n) = x.
Proof.
  intros P K S N D [G|[G ->]]; unfold opts_text.
  - pose proof (given_documented l n x P G) as I. rewrite (last_settings l n P I x G).
    apply String.eqb_neq in N. now rewrite N.
  - now rewrite (not_settings l n P K S G).
Qed.

Lemma port_says l d x : Forall (proper unquote m) l ->
  default_port m = decimal_number 0 d -> says unquote l "port" d x -> opts_port m (settings unquote l) = decimal_number 0 x.
Proof.
  intros P D [G|[G ->]]; unfold opts_port; change MPort with (member_of "port").
  - pose proof (given_documented l _ x P G) as I. now rewrite (last_settings l _ P I x G).
  - rewrite (not_settings l "port" P); auto; [cbn; tauto|]. destruct m; cbn; intuition discriminate.
Qed.

Lemma switch_says l n : Forall (proper unquote m) l -> In n known -> ~ In n (map fst (documented m)) ->
  (opts_bool (settings unquote l) (member_of n) = true <-> In (Turn n) l).
Proof.
  intros P K D. unfold opts_bool.
  assert (G : (In (Turn n) l /\ last_value (member_of n) (settings unquote l) = Some VTrue) \/
              (~ In (Turn n) l /\ last_value (member_of n) (settings unquote l) = None)).
  { induction P as [|i b Pi _ IH]; [right; split; [intros []|reflexivity]|].
    unfold settings in *. cbn [flat_map].
    destruct i as [k v s|k|k]; cbn [setting app last_value].
    - destruct IH as [[A B]|[A B]]; rewrite B; [left; split; [now right|reflexivity]|].
      rewrite member_of_inj; [|eapply documented_known, proper_documented, Pi|exact K].
      destruct (String.eqb_spec k n) as [->|E]; [exfalso; apply D; eapply proper_documented, Pi|].
      right. split; [|reflexivity]. intros [I|I]; [discriminate I|auto].
    - destruct IH as [[A B]|[A B]]; rewrite B; [left; split; [now right|reflexivity]|].
      rewrite member_of_inj; [|eapply switches_known, Pi|exact K].
      destruct (String.eqb_spec k n) as [->|E]; [left; split; [now left|reflexivity]|].
      right. split; [|reflexivity]. intros [I|I]; [congruence|auto].
    - destruct IH as [[A B]|[A B]]; rewrite B; [left; split; [now right|reflexivity]|].
      right. split; [|reflexivity]. intros [I|I]; [discriminate I|auto]. }
  destruct G as [[A B]|[A B]]; rewrite B; split; try easy; reflexivity.
Qed.
End Says.

Ltac known_name := cbn; tauto.
Ltac not_documented := match goal with m : mode |- _ => destruct m end; cbn; intuition discriminate.

(** ** The command *)
Section Command.
Variable connect : address -> option world.
Variable parse1 : mode -> string -> res ddl.
Variable m : mode.
Variable mc : machine.
Local Notation unq := (mc_unquote mc).
Local Notation go := (main connect parse1 m mc).

Definition bool_of (l : list item) (n : string) : bool := opts_bool (settings unq l) (member_of n).
Lemma bool_spec l n : Forall (proper unq m) l -> In n known -> ~ In n (map fst (documented m)) ->
  (bool_of l n = true <-> In (Turn n) l).
Proof. exact (switch_says unq m l n). Qed.
Lemma bool_false l n : Forall (proper unq m) l -> In n known -> ~ In n (map fst (documented m)) ->
  ~ In (Turn n) l -> bool_of l n = false.
Proof. intros P K D H. destruct (bool_of l n) eqn:E; [|reflexivity]. apply (bool_spec l n P K D) in E. contradiction. Qed.

(** The configuration that is used for the items. *)
Definition options_of (l : list item) : options :=
  mkOptions (opts_text m (settings unq l) MFile) (bool_of l "dry-run") (bool_of l "export") (bool_of l "skip-drop").

Definition rest_of (l : list item) (w p : string) : list act :=
  let a := address_of m mc (config_of m mc (settings unq l) w p) in
  Open a :: match connect a with
            | None => [Leave 1]
            | Some d => map Did (run (on_machine mc d) parse1 m (options_of l))
            end.

(** Every way a command line can end. *)
Lemma main_cases l : Forall (proper unq m) l ->
  go (flat_map spell l) =
    if bool_of l "help" then [ShowHelp; Leave 0]
    else if bool_of l "version" then [ShowVersion; Leave 0]
    else match names l with
         | [] => [NoDatabase; ShowHelp; Leave 1]
         | [w] => if bool_of l "password-prompt"
                  then AskPassword :: match read_password mc with None => [Leave 1] | Some p => rest_of l w p end
                  else rest_of l w (password_of m mc (settings unq l))
         | _ :: _ :: _ => [ManyDatabases (names l); ShowHelp; Leave 1]
         end.
Proof.
  intros P. unfold main, parse_options. rewrite (parse_items unq m l P). unfold bool_of.
  change (member_of "help") with MHelp. change (member_of "version") with MVersion.
  change (member_of "password-prompt") with MPrompt.
  destruct (opts_bool (settings unq l) MHelp); [reflexivity|].
  destruct (opts_bool (settings unq l) MVersion); [reflexivity|].
  destruct (names l) as [|w [|]]; try reflexivity.
  destruct (opts_bool (settings unq l) MPrompt); [|reflexivity].
  destruct (read_password mc); reflexivity.
Qed.

Lemma main_refused args : parse_args unq m args = None -> go args = [Leave 1].
Proof. intros H. unfold main, parse_options. now rewrite H. Qed.

Lemma doings_map t : doings (map Did t) = t.
Proof. induction t as [|e t IH]; [reflexivity|]. cbn. now rewrite <- IH at 2. Qed.
Lemma opened_map t : opened (map Did t) = [].
Proof. induction t as [|e t IH]; [reflexivity|]. exact IH. Qed.

Lemma rest_opened l w p : exists a, opened (rest_of l w p) = [a].
Proof.
  unfold rest_of. cbv zeta. eexists. cbn [opened flat_map app]. f_equal.
  destruct (connect _); [apply opened_map|reflexivity].
Qed.

(** ** What is opened *)
Lemma opened_cases args :
  (opened (go args) = [] /\ doings (go args) = [] /\
   exists c, codes (go args) = [c] /\
     (c = 0%Z <-> exists l, Forall (proper unq m) l /\ flat_map spell l = args /\
                          (In (Turn "help") l \/ In (Turn "version") l))) \/
  (exists l w a, Forall (proper unq m) l /\ flat_map spell l = args /\ names l = [w] /\
     ~ In (Turn "help") l /\ ~ In (Turn "version") l /\
     (In (Turn "password-prompt") l -> read_password mc <> None) /\ opened (go args) = [a]).
Proof.
  destruct (parse_args unq m args) as [[s r]|] eqn:E.
  2:{ left. rewrite (main_refused args E). repeat split. exists 1%Z. split; [reflexivity|]. split; [discriminate|].
      intros (l & P & S & _). rewrite <- S, (parse_items unq m l P) in E. discriminate E. }
  destruct (parsed_written unq m args s r E) as (l & P & S & -> & ->).
  assert (sw : forall n, In n ["help"; "version"; "password-prompt"] -> (bool_of l n = true <-> In (Turn n) l)).
  { intros n I. apply bool_spec; [exact P|cbn in I; cbn; intuition|].
    cbn in I. destruct I as [<-|[<-|[<-|[]]]]; not_documented. }
  assert (stop : forall acts c, go args = acts -> opened acts = [] -> doings acts = [] -> codes acts = [c] ->
     (c = 0%Z <-> In (Turn "help") l \/ In (Turn "version") l) ->
     opened (go args) = [] /\ doings (go args) = [] /\
     exists c, codes (go args) = [c] /\
     (c = 0%Z <-> exists l, Forall (proper unq m) l /\ flat_map spell l = args /\
                          (In (Turn "help") l \/ In (Turn "version") l))).
  { intros acts c -> A B C D. split; [exact A|]. split; [exact B|]. exists c. split; [exact C|]. rewrite D. split.
    - intros H. exists l. auto.
    - intros (l' & P' & S' & H).
      assert (Q : settings unq l' = settings unq l).
      { rewrite <- S', (parse_items unq m l' P') in E. injection E as E _. exact E. }
      assert (sw' : forall n, In n ["help"; "version"] -> (In (Turn n) l' <-> In (Turn n) l)).
      { intros n I. rewrite <- !bool_spec; try exact P; try exact P'; try (cbn in I; cbn; intuition; fail).
        - unfold bool_of. now rewrite Q.
        - cbn in I. destruct I as [<-|[<-|[]]]; not_documented.
        - cbn in I. destruct I as [<-|[<-|[]]]; not_documented. }
      rewrite <- !sw' by (cbn; tauto). exact H. }
  pose proof (main_cases l P) as M. rewrite S in M.
  destruct (bool_of l "help") eqn:H1.
  { left. eapply stop; [exact M|reflexivity..|]. apply sw in H1; [|cbn; tauto]. tauto. }
  destruct (bool_of l "version") eqn:H2.
  { left. eapply stop; [exact M|reflexivity..|]. apply sw in H2; [|cbn; tauto]. tauto. }
  assert (N1 : ~ In (Turn "help") l) by (rewrite <- sw by (cbn; tauto); congruence).
  assert (N2 : ~ In (Turn "version") l) by (rewrite <- sw by (cbn; tauto); congruence).
  destruct (names l) as [|w [|w' ws]] eqn:N.
  - left. eapply stop; [exact M|reflexivity..|]. split; [discriminate|tauto].
  - destruct (bool_of l "password-prompt") eqn:H3.
    + destruct (read_password mc) as [p|] eqn:R.
      * right. destruct (rest_opened l w p) as [a A]. exists l, w, a.
        repeat (split; [assumption|]). split; [intros _; discriminate|]. rewrite M. exact A.
      * left. eapply stop; [exact M|reflexivity..|]. split; [discriminate|tauto].
    + right. destruct (rest_opened l w (password_of m mc (settings unq l))) as [a A]. exists l, w, a.
      repeat (split; [assumption|]). split; [|rewrite M; exact A].
      intros H. apply sw in H; [|cbn; tauto]. congruence.
  - left. eapply stop; [exact M|reflexivity..|]. split; [discriminate|tauto].
Qed.

(** ** What the options mean *)
Lemma password_meant l p : m <> SQLite3 -> Forall (proper unq m) l ->
  meant_password unq m (mc_env mc) (read_password mc) l p ->
  (In (Turn "password-prompt") l /\ read_password mc = Some p) \/
  (~ In (Turn "password-prompt") l /\ password_of m mc (settings unq l) = p).
Proof.
  intros M P [H|[N H]]; [now left|right]. split; [exact N|]. unfold password_of.
  assert (V : password_variable m = variable m) by (destruct m; reflexivity). rewrite V.
  destruct H as [->|[-> S]]; [reflexivity|].
  change MPassword with (member_of "password").
  apply (texts_say unq m l "password" ""); try assumption; [known_name|not_documented|discriminate|].
  destruct m; reflexivity.
Qed.

Lemma file_says l f : Forall (proper unq m) l -> says unq l "file" "-" f -> opts_text m (settings unq l) MFile = f.
Proof.
  intros P S. change MFile with (member_of "file").
  apply (texts_say unq m l "file" "-"); try assumption; [known_name|not_documented|discriminate|].
  destruct m; reflexivity.
Qed.

Lemma options_say l f dry export skip : Forall (proper unq m) l -> says unq l "file" "-" f ->
  (dry = true <-> In (Turn "dry-run") l) -> (export = true <-> In (Turn "export") l) ->
  (skip = true <-> In (Turn "skip-drop") l) -> options_of l = mkOptions f dry export skip.
Proof.
  intros P F D E S. unfold options_of. rewrite (file_says l f P F).
  assert (B : forall n b, In n known -> ~ In n (map fst (documented m)) -> (b = true <-> In (Turn n) l) -> bool_of l n = b).
  { intros n b K ND H. pose proof (bool_spec l n P K ND) as G. rewrite <- H in G.
    destruct (bool_of l n), b; intuition. }
  rewrite (B "dry-run" dry), (B "export" export), (B "skip-drop" skip); try assumption; try reflexivity;
    first [known_name|not_documented].
Qed.

Lemma main_runs l w p : Forall (proper unq m) l -> names l = [w] ->
  ~ In (Turn "help") l -> ~ In (Turn "version") l ->
  (In (Turn "password-prompt") l /\ read_password mc = Some p) \/
  (~ In (Turn "password-prompt") l /\ password_of m mc (settings unq l) = p) ->
  exists t, asks l t /\ go (flat_map spell l) = (t ++ rest_of l w p)%list.
Proof.
  intros P N H V Q. rewrite (main_cases l P), N.
  rewrite (bool_false l "help"), (bool_false l "version"); try assumption; try known_name; try not_documented.
  destruct Q as [[A B]|[A B]].
  - apply (bool_spec l "password-prompt") in A as A'; try assumption; try known_name; try not_documented.
    rewrite A', B. exists [AskPassword]. split; [left; auto|reflexivity].
  - rewrite (bool_false l "password-prompt"), B; try assumption; try known_name; try not_documented.
    exists []. split; [right; auto|reflexivity].
Qed.

(** Where the adapters connect to. *)
Lemma address_leads c : m <> SQLite3 -> (0 <= cf_port c)%Z ->
  (m = Mysql \/ plain_host (cf_host c)) -> cf_socket c = "" ->
  (m = Postgres -> plain_path (cf_database c) /\ plain_option (mc_env mc "PGSSLMODE") /\
     plain_option (mc_env mc "PGSSLROOTCERT") /\ has_char " " (cf_user c) = false /\ has_char " " (cf_password c) = false) ->
  leads_to (address_of m mc c) =
    Some (mkConnection (cf_user c) (cf_password c) (cf_host c) (show_Z (cf_port c)) (cf_database c)).
Proof.
  intros M P H S G. destruct m; [| |contradiction|].
  - cbn [address_of]. unfold mysql_address. rewrite S. cbn [String.eqb leads_to].
    change (cf_host c ++ ":" ++ show_Z (cf_port c)) with (cf_host c ++ String ":" (show_Z (cf_port c))).
    cbn [Ascii.eqb Bool.eqb]. rewrite cut_last_app; [reflexivity|].
    eapply every_impl; [|exact (show_nat_decimal _ P)]. apply char_sub. reflexivity.
  - destruct H as [H|H]; [discriminate H|]. destruct (G eq_refl) as (A & B & C & D & E).
    cbn [address_of leads_to String.eqb Ascii.eqb Bool.eqb]. apply dsn_exact; auto.
  - destruct H as [H|H]; [discriminate H|].
    cbn [address_of leads_to String.eqb Ascii.eqb Bool.eqb]. now apply mssql_url_reads.
Qed.

Lemma meaning l w user password host port file dry export skip :
  m <> SQLite3 -> Forall (proper unq m) l -> names l = [w] ->
  ~ In (Turn "help") l -> ~ In (Turn "version") l ->
  says unq l "user" (user_default m) user -> meant_password unq m (mc_env mc) (read_password mc) l password ->
  says unq l "host" "127.0.0.1" host -> says unq l "port" (port_default m) port -> says unq l "file" "-" file ->
  (dry = true <-> In (Turn "dry-run") l) -> (export = true <-> In (Turn "export") l) ->
  (skip = true <-> In (Turn "skip-drop") l) ->
  says unq l "socket" "" "" -> (decimal_number 0 port < 2 ^ 63)%Z -> (m = Mysql \/ plain_host host) ->
  (m = Postgres -> mc_found mc host = false /\ plain_path w /\ plain_option (mc_env mc "PGSSLMODE") /\
     plain_option (mc_env mc "PGSSLROOTCERT") /\ has_char " " user = false /\ has_char " " password = false) ->
  exists a t, leads_to a = Some (mkConnection user password host (show_Z (decimal_number 0 port)) w) /\ asks l t /\
    go (flat_map spell l) = (t ++ Open a ::
      match connect a with
      | None => [Leave 1]
      | Some d => map Did (run (on_machine mc d) parse1 m (mkOptions file dry export skip))
      end)%list.
Proof.
  intros M P N H V U W Ho Po F D E S So Pr Hp Pg.
  destruct (main_runs l w password P N H V (password_meant l password M P W)) as (t & T & G).
  exists (address_of m mc (config_of m mc (settings unq l) w password)), t.
  assert (EU : opts_text m (settings unq l) MUser = user).
  { change MUser with (member_of "user"). apply (texts_say unq m l "user" (user_default m)); try assumption;
      [known_name|not_documented|discriminate|]. destruct m; reflexivity. }
  assert (EH : opts_text m (settings unq l) MHost = host).
  { change MHost with (member_of "host"). apply (texts_say unq m l "host" "127.0.0.1"); try assumption;
      [known_name|not_documented|discriminate|]. destruct m; [reflexivity..|contradiction|reflexivity]. }
  assert (ES : opts_text m (settings unq l) MSocket = "").
  { change MSocket with (member_of "socket"). apply (texts_say unq m l "socket" ""); try assumption;
      [known_name|not_documented|discriminate|]. destruct m; reflexivity. }
  assert (EP : opts_port m (settings unq l) = decimal_number 0 port).
  { apply (port_says unq m l (port_default m)); try assumption. destruct m; reflexivity. }
  assert (EI : int_of_uint (opts_port m (settings unq l)) = decimal_number 0 port).
  { rewrite EP. unfold int_of_uint. apply Z.ltb_lt in Pr. now rewrite Pr. }
  assert (P0 : (0 <= decimal_number 0 port)%Z).
  { destruct Po as [Q|[_ ->]]; [|destruct m; cbn; lia].
    destruct Q as (x & v & s & b & -> & St & _). apply Forall_app in P. destruct P as [_ P]. inversion P as [|? ? Pi _]; subst.
    destruct Pi as [_ K]. destruct K as (y & St' & K). specialize (K eq_refl). apply stands_spec in St. apply stands_spec in St'.
    rewrite St in St'. injection St' as <-. destruct K as (_ & K & _). apply decimal_number_le; [lia|exact K]. }
  assert (C : config_of m mc (settings unq l) w password = mkConfig w user password host (decimal_number 0 port) "").
  { unfold config_of. cbv zeta. rewrite EU, EH, EI, ?ES. destruct m; [reflexivity| |contradiction|reflexivity].
    destruct (Pg eq_refl) as [-> _]. reflexivity. }
  rewrite C in *. split.
  - apply address_leads; cbn [cf_port cf_host cf_socket cf_database cf_user cf_password]; try assumption; [reflexivity|].
    intros K. destruct (Pg K) as (_ & K'). exact K'.
  - split; [exact T|]. rewrite G. unfold rest_of. cbv zeta. rewrite C.
    rewrite (options_say l file dry export skip); try assumption. reflexivity.
Qed.
End Command.

(** SQLite: the database is the file of that name. *)
Lemma meaning_sqlite connect parse1 mc l w file dry export skip :
  Forall (proper (mc_unquote mc) SQLite3) l -> names l = [w] ->
  ~ In (Turn "help") l -> ~ In (Turn "version") l -> says (mc_unquote mc) l "file" "-" file ->
  (dry = true <-> In (Turn "dry-run") l) -> (export = true <-> In (Turn "export") l) ->
  (skip = true <-> In (Turn "skip-drop") l) ->
  main connect parse1 SQLite3 mc (flat_map spell l) =
    (Open (FileAddress w) ::
      match connect (FileAddress w) with
      | None => [Leave 1]
      | Some d => map Did (run (on_machine mc d) parse1 SQLite3 (mkOptions file dry export skip))
      end)%list.
Proof.
  intros P N H V F D E S.
  assert (X : ~ In (Turn "password-prompt") l).
  { intros I. rewrite Forall_forall in P. specialize (P _ I). cbn in P. intuition discriminate. }
  destruct (main_runs connect parse1 SQLite3 mc l w _ P N H V (or_intror (conj X eq_refl))) as (t & T & G).
  destruct T as [[T _]|[_ T]]; [contradiction|]. subst t.
  rewrite G. unfold rest_of. cbv zeta. cbn [app config_of address_of cf_database].
  rewrite (options_say parse1 SQLite3 mc l file dry export skip); try assumption. reflexivity.
Qed.

(** ** Lines that say the same *)
Lemma same_settings connect parse1 m mc l l' : Forall (proper (mc_unquote mc) m) l -> Forall (proper (mc_unquote mc) m) l' ->
  names l = names l' -> (forall n, In (Turn n) l <-> In (Turn n) l') ->
  (forall n x, last_given (mc_unquote mc) l n x <-> last_given (mc_unquote mc) l' n x) ->
  main connect parse1 m mc (flat_map spell l) = main connect parse1 m mc (flat_map spell l').
Proof.
  intros P P' N T G. set (unq := mc_unquote mc) in *.
  assert (given : forall l n, Forall (proper unq m) l -> (exists x, last_given unq l n x) \/ not_given l n).
  { clear. intros l n P. induction P as [|i b Pi _ IH]; [right; intros v s []|].
    destruct IH as [(x & a & v & s & b' & E & S & K)|IH].
    - left. exists x, (i :: a), v, s, b'. subst. auto.
    - destruct i as [k v s|k|k]; [|right; intros v s [E|E]; [discriminate E|exact (IH v s E)]..].
      destruct (String.eqb_spec k n) as [->|NE]; [|right; intros v' s' [E|E]; [congruence|exact (IH v' s' E)]].
      left. destruct Pi as (_ & x & S & _). exists x, [], v, s, b. auto. }
  assert (ng : forall n, not_given l n <-> not_given l' n).
  { assert (H : forall l l', Forall (proper unq m) l' -> (forall n x, last_given unq l' n x -> last_given unq l n x) ->
                 forall n, not_given l n -> not_given l' n).
    { clear - given. intros l l' P' G n H. destruct (given l' n P') as [(x & K)|K]; [|exact K].
      apply G in K. destruct K as (a & v & s & b & -> & _). exfalso. apply (H v s). apply in_elt. }
    intros n. split; apply H; try assumption; intros; apply G; assumption. }
  assert (lv : forall n, In n known -> ~ In n (documented_switches m) ->
     last_value (member_of n) (settings unq l) = last_value (member_of n) (settings unq l')).
  { intros n K S. destruct (given l n P) as [(x & E)|E].
    - rewrite (last_settings unq m l n P (given_documented unq m l n x P E) x E).
      apply G in E. now rewrite (last_settings unq m l' n P' (given_documented unq m l' n x P' E) x E).
    - rewrite (not_settings unq m l n P K S E). apply ng in E. now rewrite (not_settings unq m l' n P' K S E). }
  assert (bl : forall n, In n known -> ~ In n (map fst (documented m)) -> bool_of mc l n = bool_of mc l' n).
  { intros n K S. pose proof (bool_spec m mc l n P K S). pose proof (bool_spec m mc l' n P' K S). specialize (T n).
    destruct (bool_of mc l n), (bool_of mc l' n); intuition. }
  assert (tx : forall n, In n known -> ~ In n (documented_switches m) ->
     opts_text m (settings unq l) (member_of n) = opts_text m (settings unq l') (member_of n)).
  { intros n K S. unfold opts_text. now rewrite (lv n K S). }
  assert (op : options_of m mc l = options_of m mc l').
  { unfold options_of. change MFile with (member_of "file"). fold unq.
    rewrite (tx "file"), (bl "dry-run"), (bl "export"), (bl "skip-drop"); first [reflexivity|known_name|not_documented]. }
  assert (cf : forall w p, config_of m mc (settings unq l) w p = config_of m mc (settings unq l') w p).
  { intros w p. unfold config_of, opts_port.
    change MUser with (member_of "user"). change MHost with (member_of "host"). change MSocket with (member_of "socket").
    change MPort with (member_of "port").
    rewrite (tx "user"), (tx "host"), (tx "socket"), (lv "port"); first [reflexivity|known_name|not_documented]. }
  assert (pw : password_of m mc (settings unq l) = password_of m mc (settings unq l')).
  { unfold password_of. change MPassword with (member_of "password").
    rewrite (tx "password"); first [reflexivity|known_name|not_documented]. }
  rewrite (main_cases connect parse1 m mc l P), (main_cases connect parse1 m mc l' P').
  rewrite (bl "help"), (bl "version"), (bl "password-prompt"), N; try known_name; try not_documented.
  unfold rest_of. cbv zeta. fold unq. rewrite op, pw.
  destruct (bool_of mc l' "help"); [reflexivity|]. destruct (bool_of mc l' "version"); [reflexivity|].
  destruct (names l') as [|w [|]]; try reflexivity. rewrite !cf.
  destruct (bool_of mc l' "password-prompt"); [|reflexivity].
  destruct (read_password mc) as [p|]; [|reflexivity]. rewrite !cf. reflexivity.
Qed.

(** ** Switches on the line *)
Lemma written_switch unquote m l n : Forall (proper unquote m) l -> In n (documented_switches m) ->
  In ("--" ++ n) (flat_map spell l) -> In (Turn n) l.
Proof.
  intros P D I. apply in_flat_map in I. destruct I as (i & Il & Is). rewrite Forall_forall in P. specialize (P i Il).
  assert (O : option_like ("--" ++ n)).
  { apply option_like_spec. apply (switch_alone m n D). }
  assert (app_inj : forall a b : string, "--" ++ a = "--" ++ b -> a = b) by (intros a b H; injection H as H; exact H).
  destruct i as [k v s|k|w].
  - exfalso. destruct P as [P _].
    assert (dash : forall c, In (k, Some c) (documented m) -> c <> "-"%char).
    { intros c H ->. revert H. clear. destruct m; cbn; intuition congruence. }
    destruct s as [| |c|c|c]; cbn [spell proper_style] in *.
    + destruct Is as [Is|[]]. apply app_inj in Is. revert P D Is. clear. intros P D Is.
      destruct m; cbn in P, D;
        repeat (destruct D as [<-|D]; [repeat (destruct P as [<-|P]; [discriminate Is|]); destruct P|]); destruct D.
    + destruct P as [P V]. destruct Is as [Is|[Is|[]]]; [|now rewrite Is in V].
      apply app_inj in Is. subst k. exact (documented_not_switch m n P D).
    + destruct P as (P & _). destruct Is as [Is|[]]. injection Is as Is _. exact (dash c P Is).
    + destruct Is as [Is|[]]. injection Is as Is _. exact (dash c P Is).
    + destruct P as [P V]. destruct Is as [Is|[Is|[]]]; [|now rewrite Is in V]. injection Is as Is _. exact (dash c P Is).
  - destruct Is as [Is|[]]. apply app_inj in Is. now subst.
  - exfalso. destruct Is as [Is|[]]. cbn in P. now rewrite Is in P.
Qed.

Lemma sent_selected w parse1 m o s : opt_skip_drop o = true -> In s (sent (run w parse1 m o)) -> contains s "DROP" = false.
Proof.
  intros K I. assert (Q : db_trace (run w parse1 m o) <> []).
  { intros E. unfold sent in I. apply in_flat_map in I. destruct I as (e & Ie & Is).
    assert (In e (db_trace (run w parse1 m o))).
    { apply filter_In. split; [exact Ie|]. destruct e; try contradiction Is. reflexivity. }
    rewrite E in H. exact H. }
  destruct (opt_export o) eqn:E; [destruct Q; apply run_dry_quiet; auto|].
  destruct (opt_dry_run o) eqn:D; [destruct Q; apply run_dry_quiet; auto|].
  assert (sel : forall ddls, In s (selected (opt_skip_drop o) ddls) -> contains s "DROP" = false).
  { intros ddls H. apply filter_In in H. destruct H as [_ H]. rewrite K in H. cbn in H. now apply negb_true_iff. }
  destruct (run_dry_vs_apply w parse1 m o E D) as [(_ & _ & H)|(ddls & _ & H)]; [contradiction|].
  cbv zeta in H. destruct H as (_ & _ & [(_ & H & _)|[(_ & _ & H)|(l & bad & l' & rest & _ & _ & _ & _ & done & _ & H)]]).
  - exfalso. unfold sent in I. apply in_flat_map in I. destruct I as (e & Ie & Is).
    destruct e as [| | | | |ok|s' ok| | | |]; try contradiction Is.
    assert (In (Exec s' ok) (db_trace (run w parse1 m o))) by (apply filter_In; auto).
    rewrite H in H0. destruct H0 as [H0|[]]. discriminate H0.
  - rewrite H in I. exact (sel _ I).
  - apply (sel ddls). rewrite H. apply in_or_app. now left.
Qed.

Lemma doings_app a b : doings (a ++ b) = (doings a ++ doings b)%list.
Proof. apply flat_map_app. Qed.

(** Whatever is done is done by one run with the options of the items. *)
Lemma doings_run connect parse1 m mc args :
  doings (main connect parse1 m mc args) = [] \/
  exists l w, Forall (proper (mc_unquote mc) m) l /\ flat_map spell l = args /\
    doings (main connect parse1 m mc args) = run (on_machine mc w) parse1 m (options_of m mc l).
Proof.
  destruct (parse_args (mc_unquote mc) m args) as [[s r]|] eqn:E; [|left; now rewrite main_refused].
  destruct (parsed_written (mc_unquote mc) m args s r E) as (l & P & S & -> & ->).
  rewrite <- S, (main_cases connect parse1 m mc l P).
  destruct (bool_of mc l "help"); [now left|]. destruct (bool_of mc l "version"); [now left|].
  destruct (names l) as [|w [|]]; [now left| |now left].
  assert (G : forall p, doings (rest_of connect parse1 m mc l w p) = [] \/
    exists l0 w0, Forall (proper (mc_unquote mc) m) l0 /\ flat_map spell l0 = flat_map spell l /\
      doings (rest_of connect parse1 m mc l w p) = run (on_machine mc w0) parse1 m (options_of m mc l0)).
  { intros p. unfold rest_of. cbv zeta. cbn [doings flat_map app]. destruct (connect _) as [d|]; [|now left].
    right. exists l, d. split; [exact P|]. split; [reflexivity|]. apply doings_map. }
  destruct (bool_of mc l "password-prompt"); [|apply G].
  destruct (read_password mc) as [p|]; [apply G|now left].
Qed.

Lemma switch_option m mc l n : Forall (proper (mc_unquote mc) m) l -> In n (documented_switches m) ->
  In ("--" ++ n) (flat_map spell l) -> bool_of mc l n = true.
Proof.
  intros P D I. apply (bool_spec m mc l n P).
  - eapply switches_known; eauto.
  - intros K. exact (documented_not_switch m n K D).
  - eapply written_switch; eauto.
Qed.

Lemma dry_run_line connect parse1 m mc args : In "--dry-run" args \/ In "--export" args ->
  db_trace (doings (main connect parse1 m mc args)) = [].
Proof.
  intros H. destruct (doings_run connect parse1 m mc args) as [->|(l & w & P & S & ->)]; [reflexivity|].
  apply run_dry_quiet. rewrite <- S in H. cbn [options_of opt_dry_run opt_export].
  destruct H as [H|H]; [left|right]; (eapply switch_option; [exact P| |exact H]); cbn; tauto.
Qed.

Lemma skip_drop_line connect parse1 m mc args s : In "--skip-drop" args ->
  In s (sent (doings (main connect parse1 m mc args))) -> contains s "DROP" = false.
Proof.
  intros H. destruct (doings_run connect parse1 m mc args) as [->|(l & w & P & S & ->)]; [intros []|].
  apply sent_selected. rewrite <- S in H. cbn [options_of opt_skip_drop].
  eapply switch_option; [exact P| |exact H]. cbn. tauto.
Qed.

(** ** A prompt and standard input *)
Lemma prompt_line connect parse1 m mc l : Forall (proper (mc_unquote mc) m) l ->
  In (Turn "password-prompt") l -> ~ In (Turn "export") l -> says (mc_unquote mc) l "file" "-" "-" ->
  ~ In (Turn "help") l -> ~ In (Turn "version") l ->
  db_trace (doings (main connect parse1 m mc (flat_map spell l))) = [] /\
  codes (main connect parse1 m mc (flat_map spell l)) = [1%Z].
Proof.
  intros P I E F H V. rewrite (main_cases connect parse1 m mc l P).
  rewrite (bool_false m mc l "help"), (bool_false m mc l "version"); try assumption; try known_name; try not_documented.
  destruct (names l) as [|w [|]]; [split; reflexivity| |split; reflexivity].
  apply (bool_spec m mc l "password-prompt") in I; try assumption; try known_name; try not_documented. rewrite I.
  unfold read_password. destruct (mc_stdin mc) as [[p|]| |c] eqn:S; try (split; reflexivity).
  unfold rest_of. cbv zeta. cbn [doings codes flat_map app]. destruct (connect _) as [d|]; [|split; reflexivity].
  fold (doings (map Did (run (on_machine mc d) parse1 m (options_of m mc l)))). rewrite doings_map.
  assert (C : forall t, flat_map (fun a => match a with Leave c => [c] | Did (Exit c) => [c] | _ => [] end) (map Did t) = exit_codes t).
  { induction t as [|e t IH]; [reflexivity|]. cbn. rewrite IH. destruct e; reflexivity. }
  rewrite C. unfold run. pose proof (dump_ddls_silent (on_machine mc d) []) as Q.
  destruct (dump_ddls (on_machine mc d) []) as [t dump]. cbn [fst] in Q. pose proof (silent_filter t Q) as Q'.
  assert (X : exit_codes t = []).
  { clear - Q. induction t as [|e t IH]; [reflexivity|].
    inversion Q as [|? ? S Q']; subst. specialize (IH Q'). destruct e; try contradiction S; exact IH. }
  assert (EX : opt_export (options_of m mc l) = false).
  { cbn [options_of opt_export]. apply (bool_false m); try assumption; try known_name; try not_documented. }
  assert (FI : opt_file (options_of m mc l) = "-") by (cbn [options_of opt_file]; now apply (file_says parse1 m)).
  destruct dump as [cur|].
  - rewrite EX, FI. cbn [w_read_file on_machine]. unfold read_file. cbn [String.eqb Ascii.eqb Bool.eqb]. rewrite S.
    split.
    + rewrite !db_trace_app, Q'. reflexivity.
    + unfold exit_codes in *. rewrite !flat_map_app, X. reflexivity.
  - split.
    + rewrite !db_trace_app, Q'. reflexivity.
    + unfold exit_codes in *. rewrite !flat_map_app, X. reflexivity.
Qed.
