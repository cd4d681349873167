(** The UDP data channel and the command channel at the same time
    (sttp/transport/DataSubscriber.go:877-896 and 801-807): one goroutine decodes a
    data packet while another handles responses of the command channel, which replace
    the keys, signal index caches and base times that the first one reads.

    The data goroutine is cut at its reads of the shared fields; what lies between two
    reads is one step.  Compact packets come first; compressed packets, which read no
    base times and whose decoder belongs to the cache they have fetched, at the end.
    Simplifications: a word is read and written atomically and in program order; the
    subscription's settings do not change while a packet is decoded. *)
From stdpp Require Import gmap.
From Verif Require Import Base TicksModel GuidModel CompactModel CacheModel SubscriberModel.
Open Scope Z_scope.

Definition key_iv : Type := (bytes * bytes)%type.
(** DataSubscriber.go:154-159: keyIVs, signalIndexCache[0..1], baseTimeOffsets[0..1]. *)
Record shared : Type := mkShared {
  h_keys : option (key_iv * key_iv); h_cache0 : sic; h_cache1 : sic; h_base0 : Z; h_base1 : Z }.
Definition shared_of (s : sub) : shared :=
  mkShared (keyIVs s) (sc_sic (cache0 s)) (sc_sic (cache1 s)) (fst (baseTimes s)) (snd (baseTimes s)).
Definition h_cache (h : shared) (second : bool) : sic := if second then h_cache1 h else h_cache0 h.
Definition h_base (h : shared) (second : bool) : Z := if second then h_base1 h else h_base0 h.

(** The stores of the other goroutines into these fields: DataSubscriber.go:1175
    (keys; 378 with nil), 1087-1090 (one cache, under the mutex), 1123 (two words). *)
Inductive store : Type :=
| SKeys (k : option (key_iv * key_iv))
| SCache (second : bool) (c : sic)
| SBase (second : bool) (v : Z).
Definition apply (h : shared) (w : store) : shared :=
  match w with
  | SKeys k => mkShared k (h_cache0 h) (h_cache1 h) (h_base0 h) (h_base1 h)
  | SCache false c => mkShared (h_keys h) c (h_cache1 h) (h_base0 h) (h_base1 h)
  | SCache true c => mkShared (h_keys h) (h_cache0 h) c (h_base0 h) (h_base1 h)
  | SBase false v => mkShared (h_keys h) (h_cache0 h) (h_cache1 h) v (h_base1 h)
  | SBase true v => mkShared (h_keys h) (h_cache0 h) (h_cache1 h) (h_base0 h) v
  end.
Definition apply_all (h : shared) (ws : list store) : shared := fold_left apply ws h.

(** The stores a handler makes, in order, read off the state it ends with.  A cache
    that could not be decoded is not stored. *)
Definition stores (e : env) (s : sub) (code : Z) (data : bytes) : res (list store) :=
  if code =? sr_UpdateBaseTimes then
    let* (s', _) := handleUpdateBaseTimes s data in
    Ok [SBase false (fst (baseTimes s')); SBase true (snd (baseTimes s'))]
  else if code =? sr_UpdateCipherKeys then
    let* (s', _) := handleUpdateCipherKeys s data in Ok [SKeys (keyIVs s')]
  else if code =? sr_UpdateSignalIndexCache then
    let* (s', ev) := handleUpdateSignalIndexCache e s data in
    Ok (if existsb (fun x => match x with EvSubscriptionUpdated _ => true | _ => false end) ev
        then [SCache (cacheIndex s' =? 1) (sc_sic (cache_at s' (cacheIndex s')))] else [])
  else Ok [].

(** How the data goroutine has dealt with a packet: it crashed the process; it refused
    the packet (error message and disconnection); or it called the callback, with these
    measurements at the front of the slice, perhaps after reporting a parsing error. *)
Inductive outcome : Type := Crashed | Refused | Given (failed : bool) (ms : list measurement).
(** Where it stands. *)
Inductive at_ : Type :=
| Start                                                           (* line 1193 *)
| Sealed (flags : Z) (data : bytes)                               (* 1207: keys were not nil *)
| Plain (flags : Z) (data : bytes)                                (* 1224 *)
| Loop (c : sic) (body : bytes) (n : nat) (index : Z) (acc : list measurement)  (* 1373; acc in reverse *)
| Finished (o : outcome).
Definition of_res {A} (r : res A) (f : A -> at_) : at_ :=
  match r with Ok x => f x | Err => Finished Refused | Panic => Finished Crashed end.

(** One step of the data goroutine with [packet], the data of a response of type
    DataPacket; [incl] and [ms] are the settings of the subscription. *)
Definition data_step (e : env) (pool : option (list measurement)) (incl ms : bool) (packet : bytes) (h : shared) (a : at_) : at_ :=
  match a with
  (* DataSubscriber.go:1193-1205 *)
  | Start =>
      of_res (idx packet 0) (fun flags =>
      if negb (0 <? Z.land flags df_Compressed) && negb (0 <? Z.land flags df_Compact) then Finished Refused
      else of_res (slice_from packet 1) (fun data =>
      match h_keys h with None => Plain flags data | Some _ => Sealed flags data end))
  (* DataSubscriber.go:1206-1222; indexing the nil slice panics *)
  | Sealed flags data =>
      match h_keys h with
      | None => Finished Crashed
      | Some (k0, k1) =>
          let k := if 0 <? Z.land flags df_CipherIndex then k1 else k0 in
          of_res (decipherAES e (fst k) (snd k) data) (fun plain => Plain flags plain)
      end
  (* DataSubscriber.go:1224-1251 and 1358-1372 *)
  | Plain flags data =>
      of_res (be_u32 data) (fun count =>
      let room := length (destination pool count) in
      let c := h_cache h (0 <? Z.land flags df_CacheIndex) in
      of_res (slice_from data 4) (fun body =>
      if Count c =? 0 then Finished (Given false []) else Loop c body room 0 []))
  (* DataSubscriber.go:1373-1388; CompactMeasurement.go:279 reads one base time *)
  | Loop c body O index acc => Finished (Given false (rev acc))
  | Loop c body (S n) index acc =>
      match slice_from body index with
      | Ok t =>
          match Decode (mkCfg (signalID_of c) incl ms (h_base0 h, h_base1 h)) t with
          | Ok (m, used) => Loop c body n (index + used) (m :: acc)
          | Err => Finished (Given true (rev acc))
          | Panic => Finished Crashed
          end
      | _ => Finished Crashed
      end
  | Finished o => Finished o
  end.

(** A schedule: a step of the data goroutine, or a store of another one. *)
Inductive turn : Type := Data | Store (w : store).
Fixpoint mixed (e : env) (pool : option (list measurement)) (incl ms : bool) (packet : bytes) (h : shared) (a : at_) (sched : list turn) : at_ :=
  match sched with
  | [] => a
  | Data :: r => mixed e pool incl ms packet h (data_step e pool incl ms packet h a) r
  | Store w :: r => mixed e pool incl ms packet (apply h w) a r
  end.
Definition stores_of (sched : list turn) : list store := flat_map (fun t => match t with Store w => [w] | Data => [] end) sched.
Definition turns (sched : list turn) : nat := length (filter (fun t => match t with Data => true | _ => false end) sched).

(** ** Compressed packets *)

(** The same stores into the whole state of the subscriber; a new cache has no decoder
    yet (TSSC.go: NewDecoder is called with its first packet). *)
Definition put (s : sub) (w : store) : sub :=
  match w with
  | SKeys k => set_keyIVs s k
  | SCache second c => set_cache s (if second then 1 else 0) (mkScache c None)
  | SBase false v => set_baseTimes s (v, snd (baseTimes s))
  | SBase true v => set_baseTimes s (fst (baseTimes s), v)
  end.
Definition put_all (s : sub) (ws : list store) : sub := fold_left put ws s.
(** Where the data goroutine stands with a compressed packet.  At [ZParse] it holds the
    cache it has fetched, with its decoder; [replaced] tells whether this is no longer
    the one installed, so that its changes to the decoder are seen by nobody. *)
Inductive zat : Type :=
| ZStart                                                                        (* line 1193 *)
| ZSealed (flags : Z) (data : bytes)                                            (* 1207 *)
| ZPlain (flags : Z) (data : bytes)                                             (* 1224 *)
| ZParse (count : Z) (second : bool) (sc : scache) (replaced : bool) (body : bytes)  (* 1247 *)
| ZDone (r : res (list event)).
Definition zof {A} (s : sub) (r : res A) (f : A -> zat) : sub * zat :=
  match r with Ok x => (s, f x) | Err => (s, ZDone (Ok [EvError; EvTerminate])) | Panic => (s, ZDone Panic) end.
(** One step.  Nobody else uses the decoder, so that lines 1247-1263 are one. *)
Definition zstep (e : env) (pool : option (list measurement)) (packet : bytes) (s : sub) (a : zat) : sub * zat :=
  match a with
  (* DataSubscriber.go:1193-1205 *)
  | ZStart =>
      zof s (idx packet 0) (fun flags => match slice_from packet 1 with
        | Ok data => match keyIVs s with None => ZPlain flags data | Some _ => ZSealed flags data end
        | _ => ZDone Panic
        end)
  (* DataSubscriber.go:1206-1222 *)
  | ZSealed flags data =>
      match keyIVs s with
      | None => (s, ZDone Panic)
      | Some (k0, k1) =>
          let k := if 0 <? Z.land flags df_CipherIndex then k1 else k0 in
          zof s (decipherAES e (fst k) (snd k) data) (fun plain => ZPlain flags plain)
      end
  (* DataSubscriber.go:1224-1245 *)
  | ZPlain flags data =>
      let second := 0 <? Z.land flags df_CacheIndex in
      zof s (be_u32 data) (fun count =>
        match slice_from data 4 with
        | Ok body => ZParse count second (cache_at s (if second then 1 else 0)) false body
        | _ => ZDone Panic
        end)
  (* DataSubscriber.go:1247-1263 *)
  | ZParse count second sc replaced body =>
      let i := if second then 1 else 0 in
      let installed := cache_at s i in
      let dest := destination pool count in
      match parseTSSC (set_cache s i sc) i body (length dest) with
      | Ok (s', ms, ev) =>
          let s' := if replaced then set_cache s' i installed else s' in
          (set_measTotal s' (u64 (measTotal s' + count)), ZDone (Ok (ev ++ [EvMeasurements (ms ++ skipn (length ms) dest)])))
      | _ => (s, ZDone Panic)
      end
  | ZDone r => (s, ZDone r)
  end.
(** Another goroutine stores. *)
Definition zreplace (w : store) (a : zat) : zat :=
  match a, w with
  | ZParse count second sc replaced body, SCache i _ => ZParse count second sc (replaced || Bool.eqb i second) body
  | _, _ => a
  end.
Fixpoint zmixed (e : env) (pool : option (list measurement)) (packet : bytes) (s : sub) (a : zat) (sched : list turn) : sub * zat :=
  match sched with
  | [] => (s, a)
  | Data :: r => let '(s1, a1) := zstep e pool packet s a in zmixed e pool packet s1 a1 r
  | Store w :: r => zmixed e pool packet (put s w) (zreplace w a) r
  end.
