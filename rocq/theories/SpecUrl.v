(** How a connection URL is read (RFC 3986 as in Go's [net/url], which the PostgreSQL driver
    uses): no control characters; the fragment after the first [#] and the query after the
    first [?] are cut off; the authority ends at the first slash; the user information ends
    at the last at sign of the authority and is divided by its first colon; the port follows
    the last colon of the host.  User, password and path are percent-decoded; a plus sign
    stands for itself. *)
From Coq Require Import String Ascii List ZArith Bool.
Import ListNotations.
Local Open Scope string_scope.

Fixpoint cut (c : ascii) (s : string) : string * option string :=
  match s with
  | EmptyString => ("", None)
  | String a s' => if Ascii.eqb a c then ("", Some s') else let (x, y) := cut c s' in (String a x, y)
  end.

(** The parts before and after the last [c]. *)
Fixpoint cut_last (c : ascii) (s : string) : option (string * string) :=
  match s with
  | EmptyString => None
  | String a s' =>
      match cut_last c s' with
      | Some (x, y) => Some (String a x, y)
      | None => if Ascii.eqb a c then Some ("", s') else None
      end
  end.

Definition code (c : ascii) : N := N_of_ascii c.
Definition control (c : ascii) : bool := ((code c <? 32) || (code c =? 127))%N.
Definition hex_value (c : ascii) : option N :=
  let n := code c in
  if ((48 <=? n) && (n <=? 57))%N then Some (n - 48)%N
  else if ((65 <=? n) && (n <=? 70))%N then Some (n - 55)%N
  else if ((97 <=? n) && (n <=? 102))%N then Some (n - 87)%N
  else None.

Fixpoint percent_decode (s : string) : option string :=
  match s with
  | EmptyString => Some ""
  | String "%" (String a (String b r)) =>
      match hex_value a, hex_value b, percent_decode r with
      | Some x, Some y, Some d => Some (String (ascii_of_N (16 * x + y)) d)
      | _, _, _ => None
      end
  | String c r => if Ascii.eqb c "%" then None
                  else match percent_decode r with Some d => Some (String c d) | None => None end
  end.

Fixpoint every (f : ascii -> bool) (s : string) : bool :=
  match s with EmptyString => true | String a s' => f a && every f s' end.

Definition one_of (s : string) (c : ascii) : bool := existsb (Ascii.eqb c) (list_ascii_of_string s).
Definition alphanumeric (c : ascii) : bool :=
  let n := code c in
  ((48 <=? n) && (n <=? 57) || (65 <=? n) && (n <=? 90) || (97 <=? n) && (n <=? 122))%N.
Definition decimal (c : ascii) : bool := ((48 <=? code c) && (code c <=? 57))%N.

(** Characters allowed in user information and in a host name. *)
Definition user_char (c : ascii) : bool := alphanumeric c || one_of "-._:~!$&'()*+,;=%@" c.
Definition host_char (c : ascii) : bool := alphanumeric c || one_of "-._~!$&'()*+,;=:" c.

Record connection := mkConnection {
  cn_user : string; cn_password : string; cn_host : string; cn_port : string; cn_database : string }.

Definition read_url (url : string) : option connection :=
  if negb (every (fun c => negb (control c)) url) then None
  else
    let (url, _) := cut "#" url in
    let (url, _) := cut "?" url in
    match url with
    | String "p" (String "o" (String "s" (String "t" (String "g" (String "r" (String "e" (String "s"
        (String ":" (String "/" (String "/" rest)))))))))) =>
        let (authority, path) := cut "/" rest in
        match cut_last "@" authority with
        | None => None
        | Some (info, host) =>
            let (user, password) := cut ":" info in
            let password := match password with Some p => p | None => "" end in
            if every user_char info && every host_char host then
              match cut_last ":" host, percent_decode user, percent_decode password,
                    percent_decode match path with Some p => p | None => "" end with
              | Some (host, port), Some u, Some w, Some d =>
                  if every decimal port then Some (mkConnection u w host port d) else None
              | _, _, _, _ => None
              end
            else None
        end
    | _ => None
    end.

(** Hosts and database names that are written as they are. *)
Definition plain_host (h : string) : Prop := every (fun c => alphanumeric c || one_of "-._" c) h = true.
Definition plain_path (d : string) : Prop := every (fun c => negb (control c || one_of "?#%" c)) d = true.
Definition plain_option (o : option string) : Prop :=
  match o with Some x => every (fun c => negb (control c || one_of "#" c)) x = true | None => True end.
