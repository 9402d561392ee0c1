(** Model of the request the homeserver gets from a poller: [sync2/client.go] 117-143 (DoSyncV2), 145-186
    (createSyncURL), and [net/url] QueryEscape as the standard library documents it.

    Simplifications: strings are strings of bytes; encoding/json writes the keys of a map in order and
    without spaces, so the filter is one of four texts, which are written out here; sending the request,
    deadlines and the decoding of the response are left out except for what they come to. *)
From Coq Require Import Ascii.
From Verif Require Import Prelude.
Open Scope string_scope. Open Scope list_scope. Open Scope Z_scope.

(** ** net/url *)
(** shouldEscape(c, encodeQueryComponent), negated. *)
Definition unreserved (c : ascii) : bool :=
  let n := nat_of_ascii c in
  ((48 <=? n) && (n <=? 57) || (65 <=? n) && (n <=? 90) || (97 <=? n) && (n <=? 122) ||
   (n =? 45) || (n =? 46) || (n =? 95) || (n =? 126))%nat.
(** "0123456789ABCDEF"[n] *)
Definition upperhex (n : nat) : ascii := ascii_of_nat (if (n <? 10)%nat then 48 + n else 55 + n)%nat.
Fixpoint QueryEscape (s : string) : string :=
  match s with
  | EmptyString => EmptyString
  | String c s =>
      if unreserved c then String c (QueryEscape s)
      else if Ascii.eqb c " " then String "+" (QueryEscape s)
      else String "%" (String (upperhex (nat_of_ascii c / 16)) (String (upperhex (nat_of_ascii c mod 16)) (QueryEscape s)))
  end.

(** ** The request *)
(** The text of json.Marshal(filter), client.go:169-181. A double quote is the byte 34. *)
Definition quote : string := String (ascii_of_nat 34) "".
Definition quoted (s : string) : string := quote +:+ s +:+ quote.
Definition filter_json (since : string) (toDeviceOnly : bool) : string :=
  "{" +:+ quoted "presence" +:+ ":{" +:+ quoted "not_types" +:+ ":[" +:+ quoted "*" +:+ "]}," +:+ quoted "room" +:+ ":{" +:+
  (if toDeviceOnly then quoted "rooms" +:+ ":[]," else "") +:+
  quoted "timeline" +:+ ":{" +:+ quoted "limit" +:+ ":" +:+ (if String.eqb since "" then "1" else "50") +:+ "}}}".

(** client.go:145-186, createSyncURL. *)
Definition createSyncURL (server since : string) (isFirst toDeviceOnly : bool) : string :=
  let qps := "?" +:+ (if isFirst then "timeout=0" else "timeout=30000") in
  let qps := if negb (String.eqb since "") then qps +:+ "&since=" +:+ QueryEscape since else qps in
  let qps := qps +:+ "&set_presence=offline" in
  let qps := qps +:+ "&filter=" +:+ QueryEscape (filter_json since toDeviceOnly) in
  server +:+ "/_matrix/client/r0/sync" +:+ qps.

(** What the homeserver does with the request: nothing is heard of it, or there is a status, and a
    body that may be a sync response. *)
Inductive answer (R : Type) := Silence | Status (n : Z) (body : option R).
Arguments Silence {R}. Arguments Status {R} n body.
(** client.go:117-143, DoSyncV2. *)
Definition DoSyncV2 {R} (send : bool -> string -> string -> answer R) (server token since : string) (isFirst toDeviceOnly : bool) :
    option R * Z * bool (* there is an error *) :=
  match send isFirst (* with which deadline *) ("Bearer " +:+ token) (createSyncURL server since isFirst toDeviceOnly) with
  | Silence => (None, 0, true)
  | Status n body =>
      if n =? 200 then match body with Some r => (Some r, 200, false) | None => (None, 0, true) end
      else (None, n, true)
  end.
