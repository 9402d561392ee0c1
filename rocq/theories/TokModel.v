(** Model of the table of access tokens and of starting the pollers from it:
    [sync2/tokens_table.go], [sync2/devices_table.go], [sync2/handler2/handler.go] and
    [sync3/handler/handler.go]. *)
From Coq Require Import Ascii.
From Verif Require Import Prelude.
Open Scope string_scope. Open Scope list_scope. Open Scope Z_scope.

(** ** Encryption *)

(** SHA256 and AES-GCM are not modelled: any hash function, and any functions to seal and
    open. A byte string is a string. *)
Record crypto := mk_crypto {
  c_hash : string -> string;                                   (* hashToken, 105-112 *)
  c_seal : string -> string -> string -> string;               (* key, nonce, plaintext *)
  c_open : string -> string -> string -> option string         (* key, nonce, ciphertext *)
}.
(** gcm.NonceSize(). *)
Definition nonce_size : nat := 12.

(** encoding/hex. *)
Definition hex_digit (n : nat) : ascii := ascii_of_nat (if (n <? 10)%nat then 48 + n else 87 + n).
Fixpoint hex_encode (s : string) : string :=
  match s with
  | EmptyString => EmptyString
  | String a s => String (hex_digit (nat_of_ascii a / 16)) (String (hex_digit (nat_of_ascii a mod 16)) (hex_encode s))
  end.
Definition from_hex (a : ascii) : option nat :=
  let n := nat_of_ascii a in
  if ((48 <=? n) && (n <=? 57))%nat then Some (n - 48)%nat
  else if ((97 <=? n) && (n <=? 102))%nat then Some (n - 87)%nat
  else if ((65 <=? n) && (n <=? 70))%nat then Some (n - 55)%nat
  else None.
Fixpoint hex_decode (s : string) : option string :=
  match s with
  | EmptyString => Some EmptyString
  | String a EmptyString => None
  | String a (String b s) =>
      match from_hex a, from_hex b, hex_decode s with
      | Some x, Some y, Some s => Some (String (ascii_of_nat (16 * x + y)) s)
      | _, _, _ => None
      end
  end.
(** strings.Split(s, " "). *)
Fixpoint split (s : string) : list string :=
  match s with
  | EmptyString => [EmptyString]
  | String a s =>
      if Ascii.eqb a " " then EmptyString :: split s
      else match split s with x :: l => String a x :: l | [] => [String a EmptyString] end
  end.

(** tokens_table.go:58-72; the nonce is random. *)
Definition encrypt (cr : crypto) (key nonce token : string) : string :=
  (hex_encode nonce ++ " " ++ hex_encode (c_seal cr key nonce token))%string.
Inductive decrypted := Panics | Fails | Plain (token : string).
(** tokens_table.go:73-103. There is a panic if there is no second part and, from
    gcm.Open, if the nonce has another length. *)
Definition decrypt (cr : crypto) (key s : string) : decrypted :=
  match split s with
  | [] => Panics
  | nonce :: rest =>
      match hex_decode nonce with
      | None => Fails
      | Some nonce =>
          match rest with
          | [] => Panics
          | enc :: _ =>
              match hex_decode enc with
              | None => Fails
              | Some enc =>
                  if (String.length nonce =? nonce_size)%nat then
                    match c_open cr key nonce enc with Some t => Plain t | None => Fails end
                  else Panics
              end
          end
      end
  end.

(** ** The tables *)

(** tokens_table.go:39-46: the rows by their primary key, token_hash. *)
Record trow := mk_trow { r_enc : string; r_user : string; r_dev : string; r_seen : Z }.
(** devices_table.go:21-28: since by (user_id, device_id). *)
Record store := mk_store { s_tokens : gmap string trow; s_devices : gmap (string * string) string }.
Definition store0 : store := mk_store ∅ ∅.
(** tokens_table.go:16-23, Token. *)
Record token := mk_token { k_plain : string; k_hash : string; k_user : string; k_dev : string; k_seen : Z }.

(** tokens_table.go:114-131, Token; None is sql.ErrNoRows. *)
Definition find_token (cr : crypto) (st : store) (plain : string) : option token :=
  match s_tokens st !! c_hash cr plain with
  | Some r => Some (mk_token plain (c_hash cr plain) (r_user r) (r_dev r) (r_seen r))
  | None => None
  end.
(** tokens_table.go:173-199, Insert. *)
Definition insert_token (cr : crypto) (key : string) (st : store) (plain user dev : string) (now : Z) (nonce : string) : store * token :=
  let h := c_hash cr plain in
  (match s_tokens st !! h with
   | Some _ => st
   | None => mk_store (<[h := mk_trow (encrypt cr key nonce plain) user dev now]> (s_tokens st)) (s_devices st)
   end, mk_token plain h user dev now).
(** devices_table.go:36-43, InsertDevice. *)
Definition insert_device (st : store) (user dev : string) : store :=
  match s_devices st !! (user, dev) with
  | Some _ => st
  | None => mk_store (s_tokens st) (<[(user, dev) := ""]> (s_devices st))
  end.
(** The transaction in sync3/handler/handler.go:482-498. *)
Definition register (cr : crypto) (key : string) (st : store) (plain user dev : string) (now : Z) (nonce : string) : store * token :=
  let '(st, t) := insert_token cr key st plain user dev now nonce in (insert_device st user dev, t).
(** tokens_table.go:201-219, MaybeUpdateLastSeen. *)
Definition day : Z := 24 * 60 * 60.
Definition update_seen (st : store) (t : token) (now : Z) : store :=
  if now - k_seen t <? day then st
  else mk_store (alter (fun r => mk_trow (r_enc r) (r_user r) (r_dev r) now) (k_hash t) (s_tokens st)) (s_devices st).
(** tokens_table.go:241-260, Delete. *)
Definition delete_token (st : store) (hash : string) : store := mk_store (delete hash (s_tokens st)) (s_devices st).
(** devices_table.go:45-48, UpdateDeviceSince. *)
Definition update_since (st : store) (user dev since : string) : store :=
  mk_store (s_tokens st) (alter (fun _ => since) (user, dev) (s_devices st)).

Inductive got := GotToken (plain since : string) | GotError | GotPanic.
(** tokens_table.go:221-239, GetTokenAndSince. *)
Definition get_token_and_since (cr : crypto) (key : string) (st : store) (user dev hash : string) : got :=
  match s_tokens st !! hash with
  | None => GotError
  | Some r =>
      match s_devices st !! (r_user r, r_dev r) with
      | None => GotError
      | Some since =>
          if negb (String.eqb (r_user r) user) || negb (String.eqb (r_dev r) dev) then GotError
          else match decrypt cr key (r_enc r) with Plain t => GotToken t since | Fails => GotError | Panics => GotPanic end
      end
  end.

(** ** Requests *)

(** What /whoami says. *)
Inductive who := Whoami (user dev : string) | Who401 | WhoFails.
Inductive answer := Known (t : token) | Refused (code : Z).
(** sync3/handler/handler.go:353-396 and 463-504, without failures of the database: who
    sends the request. *)
Definition identify (cr : crypto) (key : string) (st : store) (plain : string) (w : who) (now : Z) (nonce : string) : store * answer :=
  if String.eqb plain "" then (st, Refused 401)
  else
    match find_token cr st plain with
    | Some t => (update_seen st t now, Known t)
    | None =>
        match w with
        | Who401 => (st, Refused 401)
        | WhoFails => (st, Refused 502)
        | Whoami user dev =>
            let '(st, t) := register cr key st plain user dev now nonce in (update_seen st t now, Known t)
        end
    end.

(** Everything that changes the tables; each is one transaction or statement. [key] is the
    key of the process at the time, which a restart with another secret changes. *)
Inductive top :=
  | Register (key plain user dev : string) (now : Z) (nonce : string)
  | Seen (t : token) (now : Z)
  | Delete (hash : string)
  | Since (user dev since : string).
Definition top1 (cr : crypto) (st : store) (o : top) : store :=
  match o with
  | Register key plain user dev now nonce => (register cr key st plain user dev now nonce).1
  | Seen t now => update_seen st t now
  | Delete hash => delete_token st hash
  | Since user dev since => update_since st user dev since
  end.
Definition tops (cr : crypto) (st : store) (l : list top) : store := fold_left (top1 cr) l st.

(** devices_table.go:58-67, FindOldDevices: the devices with a token, all of whose tokens
    were last seen before [now - period]. *)
Definition tokens_of (st : store) (d : string * string) : list trow :=
  List.filter (fun r => String.eqb (r_user r) d.1 && String.eqb (r_dev r) d.2) (map snd (map_to_list (s_tokens st))).
Definition is_old (st : store) (now period : Z) (d : string * string) : bool :=
  match tokens_of st d with
  | [] => false
  | r :: l => fold_left Z.max (map r_seen l) (r_seen r) <? now - period
  end.
Definition old_devices (st : store) (now period : Z) : list (string * string) :=
  List.filter (is_old st now period) (map fst (map_to_list (s_devices st))).

(** ** Starting the pollers *)

(** The rows of the query in tokens_table.go:153-159: one of the most recently seen tokens
    of every device. Which of those seen at the same time, and the order of the devices,
    which depends on the collation, are left open. *)
Definition row : Type := trow * string.
Definition joined (st : store) (x : row) : Prop :=
  (exists h, s_tokens st !! h = Some x.1) /\ s_devices st !! (r_user x.1, r_dev x.1) = Some x.2.
Definition row_device (x : row) : string * string := (r_user x.1, r_dev x.1).
Definition distinct_on (st : store) (l : list row) : Prop :=
  NoDup (map row_device l)
  /\ (forall x, In x l -> joined st x /\ forall y, joined st y -> row_device y = row_device x -> r_seen y.1 <= r_seen x.1)
  /\ (forall y, joined st y -> exists x, In x l /\ row_device x = row_device y).
(** tokens_table.go:142-171, TokenForEachDevice. A token that cannot be decrypted has an
    empty AccessToken. The error returned is the one of the last decryption; it is
    assigned on every round. None is a panic. *)
Record forpoller := mk_forpoller { p_token : string; p_user : string; p_dev : string; p_since : string }.
Fixpoint decrypt_rows (cr : crypto) (key : string) (l : list row) (err : bool) : option (list forpoller * bool) :=
  match l with
  | [] => Some ([], err)
  | (r, since) :: l =>
      match decrypt cr key (r_enc r) with
      | Panics => None
      | Fails => match decrypt_rows cr key l true with
                 | Some (ts, e) => Some (mk_forpoller "" (r_user r) (r_dev r) since :: ts, e)
                 | None => None end
      | Plain t => match decrypt_rows cr key l false with
                   | Some (ts, e) => Some (mk_forpoller t (r_user r) (r_dev r) since :: ts, e)
                   | None => None end
      end
  end.
(** sync2/handler2/handler.go:124-145, StartV2Pollers up to the workers: the tokens to
    start pollers with. With an error it does nothing. *)
Definition to_start (cr : crypto) (key : string) (rows : list row) : option (list forpoller) :=
  match decrypt_rows cr key rows false with
  | None => None
  | Some (ts, true) => Some []
  | Some (ts, false) => Some (List.filter (fun t => negb (String.eqb (p_token t) "")) ts)
  end.

(** handler.go:146-176: the workers take tokens from the channel, start a poller and
    report. They share the variable [err]. [w_busy] has, for every worker that has started
    a poller and not reported yet, the device. *)
Record workers := mk_workers {
  w_queue : list forpoller; w_err : bool; w_busy : list (string * string);
  w_reports : list (string * string * bool)         (* device, Success *)
}.
Definition workers0 (l : list forpoller) : workers := mk_workers l false [] [].
(** A step: the poller of the next token was started, or refused; or a worker reports. *)
Inductive wstep :=
  | WStarted (failed : bool)
  | WReport (n : nat).
Definition wstep1 (w : workers) (s : wstep) : workers :=
  match s with
  | WStarted failed =>
      match w_queue w with
      | [] => w
      | t :: q => mk_workers q failed (w_busy w ++ [(p_user t, p_dev t)]) (w_reports w)
      end
  | WReport n =>
      match w_busy w !! n with
      | Some d => mk_workers (w_queue w) (w_err w) (delete n (w_busy w)) (w_reports w ++ [(d, negb (w_err w))])
      | None => w
      end
  end.
Definition wruns (w : workers) (l : list wstep) : workers := fold_left wstep1 l w.
