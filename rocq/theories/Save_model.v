(** cache-memory.go: saving the cache to a file while it is in use, and loading it. *)
From Verif Require Import Base Bytes Dns Blob_model Lru_model Cache_model.
Local Open Scope nat_scope.

Section SAVE.
(** The cache; what is done to it under the lock in one go; the records in the order in which serialize comes to them; what a new process starts with, given the file *)
Variables A E R : Type.
Variable op : E -> A -> A -> Prop.
Variable records : A -> list R.
Variable boot : option (list R) -> A -> Prop.

(** cache-memory.go:165-187 writeToFile, and the two callers of it (157-162 Close, 210-218 intervalSave): where a call is *)
Inductive pc :=
| Idle
| WantSave                        (* saveMu.Lock *)
| Open                            (* writeFileAtomic up to the call of the function *)
| WantMu                          (* mu.Lock *)
| Encode (done : list R)          (* serialize *)
| Finish (out : list R)           (* Flush, Sync, Close *)
| Rename (out : list R)
| Leave (err : bool)              (* saveMu.Unlock *)
| Done (err : bool).
(** The temporary file is replaced for the other in one step, see C35. *)
Record state := State { cache : A; mu : option nat; saveMu : option nat; file : option (list R); calls : nat -> pc }.
Definition set (f : nat -> pc) (i : nat) (p : pc) : nat -> pc := fun j => if Nat.eqb i j then p else f j.
Inductive label := LOp (e : E) | LSave (i : nat) | LBoot.
Inductive step : state -> label -> state -> Prop :=
| s_op : forall e a c s f p, op e a c -> step (State a None s f p) (LOp e) (State c None s f p)
| s_call : forall i a m s f p, p i = Idle \/ (exists e, p i = Done e) -> step (State a m s f p) (LSave i) (State a m s f (set p i WantSave))
| s_save : forall i a m f p, p i = WantSave -> step (State a m None f p) (LSave i) (State a m (Some i) f (set p i Open))
| s_open : forall i a m s f p, p i = Open -> step (State a m s f p) (LSave i) (State a m s f (set p i WantMu))
| s_lock : forall i a s f p, p i = WantMu -> step (State a None s f p) (LSave i) (State a (Some i) s f (set p i (Encode [])))
| s_record : forall i a m s f p d r, p i = Encode d -> nth_error (records a) (length d) = Some r -> step (State a m s f p) (LSave i) (State a m s f (set p i (Encode (d ++ [r]))))
| s_encoded : forall i a m s f p d, p i = Encode d -> nth_error (records a) (length d) = None -> step (State a m s f p) (LSave i) (State a None s f (set p i (Finish d)))
| s_finish : forall i a m s f p d, p i = Finish d -> step (State a m s f p) (LSave i) (State a m s f (set p i (Rename d)))
| s_rename : forall i a m s f p d, p i = Rename d -> step (State a m s f p) (LSave i) (State a m s (Some d) (set p i (Leave false)))
| s_fail : forall i a m s f p, p i = Open \/ (exists d, p i = Finish d) \/ (exists d, p i = Rename d) -> step (State a m s f p) (LSave i) (State a m s f (set p i (Leave true)))
| s_fail_encode : forall i a m s f p d, p i = Encode d -> step (State a m s f p) (LSave i) (State a None s f (set p i (Leave true)))
| s_leave : forall i a m s f p e, p i = Leave e -> step (State a m s f p) (LSave i) (State a m None f (set p i (Done e)))
(** The process ends in any way, and a new one starts (43-59 NewMemoryBackend) *)
| s_boot : forall a m s f p c, boot f c -> step (State a m s f p) LBoot (State c None None f (fun _ => Idle)).
Inductive run : state -> list label -> state -> Prop :=
| run_nil : forall s, run s [] s
| run_snoc : forall s t l s' s'', run s t s' -> step s' l s'' -> run s (t ++ [l]) s''.
Definition start (a : A) (f : option (list R)) : state := State a None None f (fun _ => Idle).
End SAVE.
Arguments Idle {R}. Arguments WantSave {R}. Arguments Open {R}. Arguments WantMu {R}. Arguments Encode {R}. Arguments Finish {R}. Arguments Rename {R}. Arguments Leave {R}. Arguments Done {R}.
Arguments State {A R}. Arguments cache {A R}. Arguments mu {A R}. Arguments saveMu {A R}. Arguments file {A R}. Arguments calls {A R}. Arguments start {A R}. Arguments set {R}.
Arguments LOp {E}. Arguments LSave {E}. Arguments LBoot {E}. Arguments step {A E R}. Arguments run {A E R}.

(** lru-cache.go:270-285 deserialize, cache-memory.go:189-208 loadFromFile: the values in the file, None for what does not decode to a record *)
Section LOAD.
Variable unpack : bytes -> option msg.
Variable hash : lruKey -> N.
Fixpoint decodeFile (l : list (option itemJSON)) (c : lru bytes) : option (lru bytes) :=
  match l with
  | [] => Some c
  | None :: _ => Some c
  | Some r :: l' =>
      match toCacheBlob (fun w => match unpack w with Some _ => true | None => false end) r with
      | None => decodeFile l' c
      | Some b => match addKey lruKey bytes matchesKey hash (j_key r) b c with None => None | Some c' => decodeFile l' c' end
      end
  end.
(** A file that cannot be opened is as good as none *)
Definition loadFromFile (values : option (list (option itemJSON))) (capacity : Z) : option (lru bytes) :=
  match values with None => Some (cache_new capacity) | Some l => decodeFile l (cache_new capacity) end.
End LOAD.

(** The memory back end under the cache element: a cache with its hash function, which is another in each process. The file may come to the new process whole, cut short, damaged from some record on, or not at all. *)
Section MEMORY.
Variable ipString : bytes -> string.
Variable pack : msg -> option bytes.
Variable unpack : bytes -> option msg.
Variable o : options.
Definition backend : Type := ((lruKey -> N) * lru bytes)%type.
Definition mem_op (e : event) (a b : backend) : Prop := fst b = fst a /\ exec ipString pack unpack (fst a) o (snd a) e = Some (snd b).
Definition mem_records (a : backend) : list itemJSON := match saveFile (snd a) with Some l => l | None => [] end.
Definition mem_boot (f : option (list itemJSON)) (a : backend) : Prop :=
  exists capacity values, loadFromFile unpack (fst a) values capacity = Some (snd a) /\
    (values = None \/ exists recs n rest, f = Some recs /\ values = Some (map Some (firstn n recs) ++ rest) /\ (rest = [] \/ exists junk, rest = None :: junk)).
End MEMORY.
