(** Model of setting up what is kept for one user while updates arrive:
    [sync3/handler/handler.go], userCache, setupConnection and the callbacks, and
    [sync3/dispatcher.go], Register. *)
From Verif Require Import Prelude.
Open Scope string_scope. Open Scope list_scope. Open Scope Z_scope.

(** What is stored about a user comes in sections, which are read one after the other:
    0 unread counts, 1 m.direct, 2 ignored users, 3 tags, 4 invites, and at last 5 the
    children of the spaces which the user is in. A key is a section and a name (a room);
    values are numbers, 0 if there is nothing. What the cache does with the values is in
    UserModel; here it keeps the latest. *)
Notation key := (nat * string)%type.
Definition section (k : key) : nat := k.1.

(** What a request that sets up a connection is about to do, and with which cache. *)
Inductive thread :=
  | Reading (c : nat) (n : nat)      (* the sections below n are read *)
  | Registering (c : nat)            (* the cache is in userCaches *)
  | Connecting (c : nat).            (* userCache has returned *)

Record st := mk_st {
  db : gmap key Z;                   (* the database *)
  writer : option (key * Z);         (* stored by the poller but not yet in the channel *)
  queue : list (key * Z);            (* notifications in the channel *)
  meta : gmap key Z;                 (* children in the global cache *)
  caches : gmap nat (gmap key Z); fresh : nat;
  stored : option nat;               (* h.userCaches *)
  registered : option nat;           (* the dispatcher's receiver for the user *)
  threads : gmap nat thread;
  conns : gmap nat nat;              (* connections and their caches *)
  inval : option bool * nat          (* OnInvalidateRoom: whether the user was registered, and which step is next *)
}.
Definition st0 : st := mk_st ∅ None [] ∅ ∅ 0 None None ∅ ∅ (None, 0%nat).

Inductive step :=
  | Write (k : key) (v : Z) | Notify | Deliver
  | Start (t : nat) | Read (t : nat) | Store (t : nat) | Register (t : nat) | RegisterFails (t : nat) | Connect (t : nat)
  | Unregister | Delete | Close.

Definition val (m : gmap key Z) (k : key) : Z := default 0 (m !! k).
(** The keys of a section of [src] replace those of [dst]. *)
Definition read_section (n : nat) (src dst : gmap key Z) : gmap key Z :=
  filter (fun kv : key * Z => section kv.1 = n) src ∪ filter (fun kv : key * Z => section kv.1 <> n) dst.
Definition upd_cache (f : gmap key Z -> gmap key Z) (c : nat) (cs : gmap nat (gmap key Z)) : gmap nat (gmap key Z) :=
  <[c := f (default ∅ (cs !! c))]> cs.

(** handler.go:694-702, 731-755, 806-821: unread counts and leaving carry the value, account data and
    invites are looked up, and nothing happens if they are gone. *)
Definition deliver_value (d : gmap key Z) (k : key) (v : Z) : option Z :=
  if (section k =? 0)%nat || (v =? 0) then Some v else if val d k =? 0 then None else Some (val d k).

Definition next (x : step) (s : st) : option st :=
  match x with
  | Write k v =>
      (* sync2/handler2: a poller stores before it notifies; one callback at a time *)
      match writer s with
      | Some _ => None
      | None => Some (mk_st (<[k := v]> (db s)) (Some (k, v)) (queue s) (meta s) (caches s) (fresh s) (stored s) (registered s) (threads s) (conns s) (inval s))
      end
  | Notify =>
      match writer s with
      | None => None
      | Some n => Some (mk_st (db s) None (queue s ++ [n]) (meta s) (caches s) (fresh s) (stored s) (registered s) (threads s) (conns s) (inval s))
      end
  | Deliver =>
      (* handler.go:694-821; for section 5 dispatcher.go:254-282: the global cache, then the
         user's receiver. One goroutine handles the notifications and OnInvalidateRoom. *)
      match queue s, inval s with
      | (k, v) :: q, (_, 0%nat) =>
          if (section k =? 5)%nat then
            let cs := match registered s with Some c => upd_cache <[k := v]> c (caches s) | None => caches s end in
            Some (mk_st (db s) (writer s) q (<[k := v]> (meta s)) cs (fresh s) (stored s) (registered s) (threads s) (conns s) (inval s))
          else
            let cs := match stored s, deliver_value (db s) k v with
                      | Some c, Some w => upd_cache <[k := w]> c (caches s)
                      | _, _ => caches s
                      end in
            Some (mk_st (db s) (writer s) q (meta s) cs (fresh s) (stored s) (registered s) (threads s) (conns s) (inval s))
      | _, _ => None
      end
  | Start t =>
      (* handler.go:526-531 *)
      match threads s !! t, conns s !! t with
      | None, None =>
          match stored s with
          | Some c => Some (mk_st (db s) (writer s) (queue s) (meta s) (caches s) (fresh s) (stored s) (registered s) (<[t := Connecting c]> (threads s)) (conns s) (inval s))
          | None =>
              Some (mk_st (db s) (writer s) (queue s) (meta s) (<[fresh s := ∅]> (caches s)) (S (fresh s)) (stored s) (registered s)
                      (<[t := Reading (fresh s) 0]> (threads s)) (conns s) (inval s))
          end
      | _, _ => None
      end
  | Read t =>
      (* handler.go:532-573, one query each *)
      match threads s !! t with
      | Some (Reading c n) =>
          if (n <? 5)%nat then
            Some (mk_st (db s) (writer s) (queue s) (meta s) (upd_cache (read_section n (db s)) c (caches s)) (fresh s) (stored s) (registered s)
                    (<[t := Reading c (S n)]> (threads s)) (conns s) (inval s))
          else None
      | _ => None
      end
  | Store t =>
      (* handler.go:575-579, LoadOrStore *)
      match threads s !! t with
      | Some (Reading c 5) =>
          match stored s with
          | Some c' => Some (mk_st (db s) (writer s) (queue s) (meta s) (caches s) (fresh s) (stored s) (registered s) (<[t := Connecting c']> (threads s)) (conns s) (inval s))
          | None => Some (mk_st (db s) (writer s) (queue s) (meta s) (caches s) (fresh s) (Some c) (registered s) (<[t := Registering c]> (threads s)) (conns s) (inval s))
          end
      | _ => None
      end
  | Register t =>
      (* dispatcher.go:82-90 and user.go:238-318, under the dispatcher's lock *)
      match threads s !! t with
      | Some (Registering c) =>
          Some (mk_st (db s) (writer s) (queue s) (meta s) (upd_cache (read_section 5 (meta s)) c (caches s)) (fresh s) (stored s) (Some c)
                  (<[t := Connecting c]> (threads s)) (conns s) (inval s))
      | _ => None
      end
  | RegisterFails t =>
      (* handler.go:580-584 *)
      match threads s !! t with
      | Some (Registering c) =>
          Some (mk_st (db s) (writer s) (queue s) (meta s) (caches s) (fresh s) None None (delete t (threads s)) (conns s) (inval s))
      | _ => None
      end
  | Connect t =>
      (* handler.go:446-457, CreateConn *)
      match threads s !! t with
      | Some (Connecting c) =>
          Some (mk_st (db s) (writer s) (queue s) (meta s) (caches s) (fresh s) (stored s) (registered s) (delete t (threads s)) (<[t := c]> (conns s)) (inval s))
      | _ => None
      end
  | Unregister =>
      (* handler.go:867 and dispatcher.go:66-80 *)
      match inval s with
      | (_, 0%nat) =>
          Some (mk_st (db s) (writer s) (queue s) (meta s) (caches s) (fresh s) (stored s) None (threads s) (conns s)
                  (Some (match registered s with Some _ => true | None => false end), 1%nat))
      | _ => None
      end
  | Delete =>
      (* handler.go:868-870 *)
      match inval s with
      | (Some b, 1%nat) =>
          Some (mk_st (db s) (writer s) (queue s) (meta s) (caches s) (fresh s) (if b then None else stored s) (registered s) (threads s) (conns s) (Some b, 2%nat))
      | _ => None
      end
  | Close =>
      (* handler.go:874, CloseConnsForUsers *)
      match inval s with
      | (Some b, 2%nat) =>
          Some (mk_st (db s) (writer s) (queue s) (meta s) (caches s) (fresh s) (stored s) (registered s) (threads s) (if b then ∅ else conns s) (None, 0%nat))
      | _ => None
      end
  end.
Fixpoint runs (l : list step) (s : st) : option st :=
  match l with
  | [] => Some s
  | x :: l => match next x s with Some s' => runs l s' | None => None end
  end.
