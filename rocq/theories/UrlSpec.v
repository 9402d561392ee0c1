(** What a homeserver reads in the address of a request: how addresses and forms are read (RFC 3986, and
    application/x-www-form-urlencoded), apart from how they are written. *)
From Coq Require Import Ascii.
From Verif Require Import Prelude.
Open Scope string_scope. Open Scope list_scope. Open Scope nat_scope.

Definition hexdigit (c : ascii) : option nat :=
  let n := nat_of_ascii c in
  if (48 <=? n) && (n <=? 57) then Some (n - 48)
  else if (65 <=? n) && (n <=? 70) then Some (n - 55)
  else if (97 <=? n) && (n <=? 102) then Some (n - 87)
  else None.
(** A plus is a space, and a percent sign with two digits is a byte. *)
Fixpoint unescape (s : string) : option string :=
  match s with
  | EmptyString => Some EmptyString
  | String c s =>
      if Ascii.eqb c "%" then
        match s with
        | String a (String b s) =>
            match hexdigit a, hexdigit b, unescape s with
            | Some x, Some y, Some r => Some (String (ascii_of_nat (16 * x + y)) r)
            | _, _, _ => None
            end
        | _ => None
        end
      else match unescape s with Some r => Some (String (if Ascii.eqb c "+" then " "%char else c) r) | None => None end
  end.
(** What is before the first [sep], and what after. *)
Fixpoint cut (sep : ascii) (s : string) : option (string * string) :=
  match s with
  | EmptyString => None
  | String c s => if Ascii.eqb c sep then Some ("", s) else match cut sep s with Some (a, b) => Some (String c a, b) | None => None end
  end.
Fixpoint pieces (sep : ascii) (s : string) : list string :=
  match s with
  | EmptyString => [""]
  | String c s =>
      if Ascii.eqb c sep then "" :: pieces sep s
      else match pieces sep s with p :: ps => String c p :: ps | [] => [String c ""] end
  end.
(** A parameter is a name and a value. *)
Definition parameter (s : string) : option (string * string) :=
  match cut "=" s with
  | Some (k, v) => match unescape k, unescape v with Some k, Some v => Some (k, v) | _, _ => None end
  | None => match unescape s with Some k => Some (k, "") | None => None end
  end.
Definition parameters (query : string) : option (list (string * string)) := mapM parameter (pieces "&" query).
(** An address: what is asked for, and the parameters. A number sign would begin a fragment, which is not
    sent. *)
Definition without_fragment (url : string) : string := match cut "#" url with Some (u, _) => u | None => url end.
Definition read (url : string) : option (string * list (string * string)) :=
  match cut "?" (without_fragment url) with
  | Some (path, query) => match parameters query with Some ps => Some (path, ps) | None => None end
  | None => Some (without_fragment url, [])
  end.
(** The base of an address of a homeserver. *)
Definition base (server : string) : Prop := forall a b, server <> a +:+ String "?" b /\ server <> a +:+ String "#" b.

(** ** What is wanted *)
(** JSON, as far as needed: strings here have nothing in them that would have to be escaped. *)
Inductive json := JText (s : string) | JNumber (s : string) | JList (l : list json) | JObject (l : list (string * json)).
Definition in_quotes (s : string) : string := String (ascii_of_nat 34) (s +:+ String (ascii_of_nat 34) "").
Fixpoint text (j : json) : string :=
  match j with
  | JText s => in_quotes s
  | JNumber s => s
  | JList l => "[" +:+ String.concat "," (map text l) +:+ "]"
  | JObject l => "{" +:+ String.concat "," (map (fun kv => in_quotes kv.1 +:+ ":" +:+ text kv.2) l) +:+ "}"
  end.
(** No presence, and of each room one event the first time and 50 later on, or nothing about rooms. *)
Definition wanted (since : string) (toDeviceOnly : bool) : json :=
  JObject [("presence", JObject [("not_types", JList [JText "*"])]);
           ("room", JObject ((if toDeviceOnly then [("rooms", JList [])] else []) ++
                             [("timeline", JObject [("limit", JNumber (if decide (since = "") then "1" else "50"))])]))].
