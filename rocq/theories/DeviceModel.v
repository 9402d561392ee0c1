(** Model of the end-to-end encryption data of a device: what the poller
    extracts from a sync v2 response, how it is stored, and what the E2EE
    extension gives to the client.

    internal/device_lists.go, internal/device_data.go,
    state/device_list_table.go, state/device_data_table.go,
    sync2/poller.go:709-772, sync3/extensions/e2ee.go.

    Simplifications: a Go map that may be nil is an [option (gmap _ _)], a slice
    that may be nil an [option (list _)]; CBOR encoding followed by decoding is
    the identity (it keeps nil apart from empty). The order in which Go walks a
    map is a parameter [ord]. A database transaction is one step: it either
    happens or leaves no trace (C50); row locks (SELECT .. FOR UPDATE on the
    device_data row, taken by both transactions) make the two kinds of
    transaction wait for each other. *)
From Verif Require Import Prelude SqlModel.
Open Scope string_scope. Open Scope list_scope. Open Scope Z_scope.

(** * internal/device_lists.go *)

(** internal/device_lists.go:8-11 *)
Definition DeviceListChanged : Z := 1.
Definition DeviceListLeft : Z := 2.

(** internal/device_lists.go:13-19 *)
Record DeviceLists := mk_dlists {
  dl_new : option (gmap string Z);
  dl_sent : option (gmap string Z) }.

Section order.
  (** The order in which Go ranges over a map. *)
  Context (ord : list (string * Z) -> list (string * Z)).

  (** internal/device_lists.go:31-37 and 38-44: overwrite the entries of one
      map with those of another. The Go code changes the older map in place;
      the result is that map. *)
  Definition overwrite (older newer : option (gmap string Z)) : gmap string Z :=
    fold_left (fun n kv => <[kv.1 := kv.2]> n)
      (ord (map_to_list (default ∅ newer))) (default ∅ older).

  (** internal/device_lists.go:30-49, Combine. *)
  Definition Combine (dl newer : DeviceLists) : DeviceLists :=
    mk_dlists (Some (overwrite (dl_new dl) (dl_new newer)))
              (Some (overwrite (dl_sent dl) (dl_sent newer))).

  (** internal/device_lists.go:51-63. *)
  Definition ToDeviceListChangesMap (changed lefts : list string) : option (gmap string Z) :=
    if bool_decide (length changed = 0%nat) && bool_decide (length lefts = 0%nat) then None
    else
      let m := fold_left (fun (m : gmap string Z) u => <[u := DeviceListChanged]> m) changed ∅ in
      Some (fold_left (fun (m : gmap string Z) u => <[u := DeviceListLeft]> m) lefts m).

  (** internal/device_lists.go:65-77; the switch is the same as in
      state/device_data_table.go:75-82. *)
  Definition DeviceListChangesArrays (m : gmap string Z) : list string * list string :=
    fold_left (fun (acc : list string * list string) (kv : string * Z) =>
      if kv.2 =? DeviceListChanged then (acc.1 ++ [kv.1], acc.2)
      else if kv.2 =? DeviceListLeft then (acc.1, acc.2 ++ [kv.1])
      else acc) (ord (map_to_list m)) ([], []).
End order.

(** * internal/device_data.go *)

(** internal/device_data.go:3-6 *)
Definition bitOTKCount : Z := 0.
Definition bitFallbackKeyTypes : Z := 1.

(** internal/device_data.go:8-15 *)
Definition setBit (n bit : Z) : Z := Z.lor n (Z.shiftl 1 bit).
Definition isBitSet (n bit : Z) : bool := 0 <? Z.land n (Z.shiftl 1 bit).

(** internal/device_data.go:32-43, type DeviceKeyData. *)
Record DeviceKeyData := mk_keys {
  k_otk : option (gmap string Z);
  k_fallback : option (list string);
  k_bits : Z }.

(** internal/device_data.go:18-29, type DeviceData: what a read returns. *)
Record DeviceData := mk_data {
  dd_keys : DeviceKeyData;
  dd_changed : list string;
  dd_left : list string }.

(** * The tables *)

(** state/device_list_table.go:12-15 *)
Definition BucketNew : Z := 1.
Definition BucketSent : Z := 2.

(** The two tables: device_list_table.go:31-38 with its UNIQUE key, and
    device_data_table.go:31-36. *)
Record ddb := mk_ddb {
  t_lists : gmap (string * string * string * Z) Z;
  t_data : gmap (string * string) DeviceKeyData }.

Definition ddb0 : ddb := mk_ddb ∅ ∅.

Section tables.
  Context (ord : list (string * Z) -> list (string * Z)).

  (** state/device_list_table.go:76-86: one INSERT .. ON CONFLICT DO UPDATE of
      a chunk; sqlx refuses an empty one. *)
  Definition insert_chunk (u d : string) (chunk : list (string * Z))
      (t : gmap (string * string * string * Z) Z) : option (gmap (string * string * string * Z) Z) :=
    match chunk with
    | [] => None
    | _ => Some (fold_left (fun t kv => <[(u, d, kv.1, BucketNew) := kv.2]> t) chunk t)
    end.

  (** state/device_list_table.go:61-90, UpsertTx. [None]: an error. *)
  Definition UpsertTx (t : gmap (string * string * string * Z) Z) (u d : string)
      (changes : option (gmap string Z)) : option (gmap (string * string * string * Z) Z) :=
    let m := default ∅ changes in
    if bool_decide (size m = 0%nat) then Some t
    else
      let rows := List.filter (fun kv : string * Z =>
                    (kv.2 =? DeviceListChanged) || (kv.2 =? DeviceListLeft))
                    (ord (map_to_list m)) in
      match Chunkify (S (length rows)) 5 65535 rows with
      | None => None
      | Some chunks =>
          fold_left (fun acc chunk => match acc with
                                      | Some t => insert_chunk u d chunk t
                                      | None => None
                                      end) chunks (Some t)
      end.

  (** state/device_list_table.go:138-156, selectDeviceListChangesInBucket: the
      rows of one device in one bucket, as a map by target. *)
  Definition in_bucket (t : gmap (string * string * string * Z) Z) (u d : string) (b : Z)
      : gmap string Z :=
    fold_left (fun (m : gmap string Z) (r : (string * string * string * Z) * Z) =>
        let '((u', d', tgt, b'), st) := r in
        if bool_decide (u' = u) && bool_decide (d' = d) && (b' =? b)
        then <[tgt := st]> m else m)
      (map_to_list t) ∅.

  (** state/device_list_table.go:101-136, SelectTx: the new table and the
      result. The DELETE keeps every row that is not a sent row of this device;
      the UPDATE moves its new rows to sent. *)
  Definition SelectTx (t : gmap (string * string * string * Z) Z) (u d : string) (swap : bool)
      : gmap (string * string * string * Z) Z * gmap string Z :=
    if negb swap then (t, in_bucket t u d BucketSent)
    else
      let kept := filter (fun r : (string * string * string * Z) * Z =>
                    r.1.1.1.1 <> u \/ r.1.1.1.2 <> d \/ r.1.2 <> BucketSent) t in
      let result := in_bucket kept u d BucketNew in
      let others := filter (fun r : (string * string * string * Z) * Z =>
                      r.1.1.1.1 <> u \/ r.1.1.1.2 <> d \/ r.1.2 <> BucketNew) kept in
      (fold_left (fun t kv => <[(u, d, kv.1, BucketSent) := kv.2]> t)
         (map_to_list result) others, result).

  (** state/device_data_table.go:48-107, Select. *)
  Definition Select (s : ddb) (u d : string) (swap : bool) : ddb * option DeviceData :=
    match t_data s !! (u, d) with
    | None => (s, None)
    | Some kd =>
        let '(lists, changes) := SelectTx (t_lists s) u d swap in
        let '(changed, lefts) := DeviceListChangesArrays ord changes in
        let res := mk_data kd changed lefts in
        if negb swap then (mk_ddb lists (t_data s), Some res)
        else
          let writeBack := mk_keys (k_otk kd) (k_fallback kd) 0 in
          if k_bits kd =? 0 then (mk_ddb lists (t_data s), Some res)
          else (mk_ddb lists (<[(u, d) := writeBack]> (t_data s)), Some res)
    end.

  (** state/device_data_table.go:110-153, Upsert. On an error ([None]) the
      transaction is rolled back. *)
  Definition Upsert (s : ddb) (u d : string) (otk : option (gmap string Z))
      (fallback : option (list string)) (changes : option (gmap string Z)) : option ddb :=
    match UpsertTx (t_lists s) u d changes with
    | None => None
    | Some lists =>
        let kd := default (mk_keys None None 0) (t_data s !! (u, d)) in
        let kd := match fallback with
                  | Some f => mk_keys (k_otk kd) (Some f) (setBit (k_bits kd) bitFallbackKeyTypes)
                  | None => kd
                  end in
        let kd := match otk with
                  | Some m => mk_keys (Some m) (k_fallback kd) (setBit (k_bits kd) bitOTKCount)
                  | None => kd
                  end in
        Some (mk_ddb lists (<[(u, d) := kd]> (t_data s)))
    end.

  (** * sync3/extensions/e2ee.go *)

  (** sync3/extensions/e2ee.go:24-33, E2EEResponse. *)
  Record E2EEResponse := mk_e2ee {
    x_otk : option (gmap string Z);
    x_lists : option (list string * list string);
    x_fallback : option (list string) }.

  (** sync3/extensions/e2ee.go:35-40, HasData. *)
  Definition HasData (isInitial : bool) (r : E2EEResponse) : bool :=
    if isInitial then true
    else bool_decide (is_Some (x_lists r)) || bool_decide (is_Some (x_fallback r))
         || negb (bool_decide (size (default ∅ (x_otk r)) = 0%nat)).

  (** sync3/extensions/e2ee.go:56-91, ProcessInitial, with
      sync3/handler/handler.go:593-634, DeviceData. *)
  Definition ProcessInitial (s : ddb) (u d : string) (isInitial : bool)
      (res : option E2EEResponse) : ddb * option E2EEResponse :=
    let '(s', dd) := Select s u d (negb isInitial) in
    match dd with
    | None => (s', res)
    | Some dd =>
        let kd := dd_keys dd in
        let fb := if bool_decide (is_Some (k_fallback kd))
                     && (isBitSet (k_bits kd) bitFallbackKeyTypes || isInitial)
                  then k_fallback kd else None in
        let otk := if bool_decide (is_Some (k_otk kd))
                      && (isBitSet (k_bits kd) bitOTKCount || isInitial)
                   then k_otk kd else None in
        let lists := if bool_decide (dd_changed dd <> []) || bool_decide (dd_left dd <> [])
                     then Some (dd_changed dd, dd_left dd) else None in
        match fb, otk, lists with
        | None, None, None => (s', res)
        | _, _, _ => (s', Some (mk_e2ee otk lists fb))
        end
    end.

  (** sync3/extensions/e2ee.go:42-54, AppendLive, for a device data update;
      IsInitial is false there (connstate_live.go:123). *)
  Definition AppendLive (s : ddb) (u d : string) (res : option E2EEResponse)
      : ddb * option E2EEResponse :=
    match res with
    | Some r => if HasData false r then (s, res) else ProcessInitial s u d false res
    | None => ProcessInitial s u d false res
    end.
End tables.

(** * sync2/poller.go *)

(** The part of the poller that remembers the last key data: poller.go, fields
    fallbackKeyTypes and otkCounts. A new poller remembers nothing. *)
Record e2ee_mem := mk_mem {
  m_otk : option (gmap string Z);
  m_fallback : option (list string) }.

Definition mem0 : e2ee_mem := mk_mem None None.

(** The E2EE part of a sync v2 response: sync2/client.go:197-207. *)
Record e2ee_res := mk_res {
  s_otk : option (gmap string Z);
  s_fallback : option (list string);
  s_changed : list string;
  s_left : list string }.

(** poller.go:715-726: the one-time-key counts to hand on, if any. *)
Definition changed_otk (p : e2ee_mem) (res : e2ee_res) : option (gmap string Z) :=
  match s_otk res with
  | None => None
  | Some new =>
      if bool_decide (size new = 0%nat) then None
      else if negb (bool_decide (size (default ∅ (m_otk p)) = size new)) then Some new
      else match m_otk p with
           | None => None
           | Some old =>
               if existsb (fun kv : string * Z =>
                    negb (kv.2 =? default 0 (old !! kv.1))) (map_to_list new)
               then Some new else None
           end
  end.

(** poller.go:728-751: the fallback key types to hand on, if any, and whether
    to remember the ones received. *)
Definition changed_fallback (p : e2ee_mem) (res : e2ee_res) : option (list string) * bool :=
  let new := default [] (s_fallback res) in
  let old := default [] (m_fallback p) in
  if negb (bool_decide (length old = length new)) then (s_fallback res, true)
  else if bool_decide (length new = 0%nat) then
    (if negb (Bool.eqb (bool_decide (s_fallback res = None)) (bool_decide (m_fallback p = None)))
     then (Some [], true) else (None, false))
  else if existsb (fun ab : string * string => negb (bool_decide (ab.1 = ab.2))) (zip new old)
       then (s_fallback res, true) else (None, false).

(** What parseE2EEData asks the receiver to store. *)
Definition e2ee_call : Type :=
  option (gmap string Z) * option (list string) * option (gmap string Z).

(** poller.go:709-772, parseE2EEData: the call to OnE2EEData, if there is one;
    afterwards, unless that failed, the new memory. *)
Definition parseE2EEData (p : e2ee_mem) (res : e2ee_res) : option e2ee_call * e2ee_mem :=
  let otk := changed_otk p res in
  let '(fb, set_fb) := changed_fallback p res in
  let lists := ToDeviceListChangesMap (s_changed res) (s_left res) in
  let call := match lists, fb, otk with
              | None, None, None => None
              | _, _, _ => Some (otk, fb, lists)
              end in
  let set_otk := negb (bool_decide (size (default ∅ (s_otk res)) = 0%nat)) in
  (call, mk_mem (if set_otk then s_otk res else m_otk p)
                (if set_fb then s_fallback res else m_fallback p)).
