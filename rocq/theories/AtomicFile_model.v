(** atomicfile.go on a file system with crashes: writers and the removal of stale temporary files run interleaved, one system call at a
    time; each call may fail. Files are regular files; symbolic links are not modelled. *)
From Verif Require Import Base Bytes.
From Coq Require Import ZArith.
Open Scope N_scope.

(** Directory and name *)
Notation path := (string * string)%type.
Definition path_eqb (a b : path) : bool := String.eqb (fst a) (fst b) && String.eqb (snd a) (snd b).
(** A file: mode, content, and whether this is on the disk *)
Record node := Node { n_mode : N; n_data : list N; n_safe : bool }.
Notation dir := (list (path * nat)).
(** The directories, the files by number, former versions of the directories to which a machine crash may return, and the temporary names
    that were ever chosen *)
Record fs := FS { f_dir : dir; f_nodes : list node; f_old : list dir; f_used : list path }.
Fixpoint lookup (p : path) (d : dir) : option nat :=
  match d with [] => None | (x, i) :: d' => if path_eqb x p then Some i else lookup p d' end.
Definition unlink (p : path) (d : dir) : dir := filter (fun e => negb (path_eqb (fst e) p)) d.
Definition link (p : path) (i : nat) (d : dir) : dir := (p, i) :: unlink p d.
Definition set_dir (d : dir) (f : fs) : fs := FS d (f_nodes f) (f_dir f :: f_old f) (f_used f).
Fixpoint upd (i : nat) (g : node -> node) (l : list node) : list node :=
  match l, i with [], _ => [] | n :: l', O => g n :: l' | n :: l', S j => n :: upd j g l' end.
Definition set_node (i : nat) (g : node -> node) (f : fs) : fs := FS (f_dir f) (upd i g (f_nodes f)) (f_old f) (f_used f).
(** write(2), fchmod(2), fsync(2) *)
Definition append (d : list N) (n : node) : node := Node (n_mode n) (n_data n ++ d) false.
Definition chmod (m : N) (n : node) : node := Node m (n_data n) false.
Definition sync (n : node) : node := Node (n_mode n) (n_data n) true.

(** atomicfile.go:18-27 *)
Definition tmpPrefix : string := ".routedns-tmp-".
Definition is_tmp (p : path) : bool := String.prefix tmpPrefix (snd p).

(** A call of writeFileAtomic: the target, the pieces that the write function writes, and whether it then fails *)
Record writer := Writer { w_target : path; w_chunks : list (list N); w_fails : bool }.
Inductive stage :=
| Stat | Chmod (m : N) | Fill (buf : list N) (chunks : list (list N)) | Flush (buf : list N) | Sync | Close | Rename.
Inductive pc :=
| Create
| At (tmp : path) (i : nat) (s : stage)
| Remove (tmp : path) (err : bool)            (* the deferred function *)
| Done (err : bool) (left : option path).     (* left: the temporary file that could not be removed *)

Section WRITER.
(** fileBufSize *)
Variable size : nat.
Variable w : writer.
(** atomicfile.go:98-139 writeFileAtomic, with the bufio.Writer *)
Inductive wstep : fs -> pc -> fs -> pc -> Prop :=
(* os.CreateTemp: O_EXCL and a random name, which is taken not to repeat *)
| ws_create_fail f : wstep f Create f (Done true None)
| ws_create f tmp : fst tmp = fst (w_target w) -> is_tmp tmp = true -> lookup tmp (f_dir f) = None -> ~ In tmp (f_used f) ->
    wstep f Create (FS ((tmp, length (f_nodes f)) :: f_dir f) (f_nodes f ++ [Node 384 [] false]) (f_dir f :: f_old f) (tmp :: f_used f)) (At tmp (length (f_nodes f)) Stat)
(* os.Stat *)
| ws_stat f tmp i j n : lookup (w_target w) (f_dir f) = Some j -> nth_error (f_nodes f) j = Some n ->
    wstep f (At tmp i Stat) f (At tmp i (Chmod (N.land (n_mode n) 511)))
| ws_stat_missing f tmp i : lookup (w_target w) (f_dir f) = None -> wstep f (At tmp i Stat) f (At tmp i (Fill [] (w_chunks w)))
(* tmp.Chmod *)
| ws_chmod f tmp i m : wstep f (At tmp i (Chmod m)) (set_node i (chmod m) f) (At tmp i (Fill [] (w_chunks w)))
(* bufio.Writer.Write *)
| ws_buffer f tmp i buf p rest : (length p <= size - length buf)%nat -> wstep f (At tmp i (Fill buf (p :: rest))) f (At tmp i (Fill (buf ++ p) rest))
| ws_direct f tmp i p rest : ~ (length p <= size)%nat -> wstep f (At tmp i (Fill [] (p :: rest))) (set_node i (append p) f) (At tmp i (Fill [] rest))
| ws_full f tmp i buf p rest : ~ (length p <= size - length buf)%nat -> buf <> [] ->
    wstep f (At tmp i (Fill buf (p :: rest))) (set_node i (append (buf ++ firstn (size - length buf) p)) f) (At tmp i (Fill [] (skipn (size - length buf) p :: rest)))
| ws_written f tmp i buf : w_fails w = false -> wstep f (At tmp i (Fill buf [])) f (At tmp i (Flush buf))
| ws_callback f tmp i buf : w_fails w = true -> wstep f (At tmp i (Fill buf [])) f (Remove tmp true)
(* w.Flush, tmp.Sync, tmp.Close, os.Rename *)
| ws_flush_empty f tmp i : wstep f (At tmp i (Flush [])) f (At tmp i Sync)
| ws_flush f tmp i buf : buf <> [] -> wstep f (At tmp i (Flush buf)) (set_node i (append buf) f) (At tmp i Sync)
| ws_sync f tmp i : wstep f (At tmp i Sync) (set_node i sync f) (At tmp i Close)
| ws_close f tmp i : wstep f (At tmp i Close) f (At tmp i Rename)
| ws_rename f tmp i j : lookup tmp (f_dir f) = Some j -> wstep f (At tmp i Rename) (set_dir (link (w_target w) j (unlink tmp (f_dir f))) f) (Remove tmp false)
(* any call may fail; a write may get part of its data into the file *)
| ws_fail f tmp i s : wstep f (At tmp i s) f (Remove tmp true)
| ws_fail_write f tmp i s d : (exists buf chunks, s = Fill buf chunks) \/ (exists buf, s = Flush buf) -> wstep f (At tmp i s) (set_node i (append d) f) (Remove tmp true)
(* os.Remove *)
| ws_remove f tmp err : wstep f (Remove tmp err) (set_dir (unlink tmp (f_dir f)) f) (Done err None)
| ws_remove_fail f tmp err : wstep f (Remove tmp err) f (Done err (Some tmp)).
End WRITER.

(** atomicfile.go:48-71 removeStaleTempFiles: the names it removes from a directory. An entry: its name, whether it is a regular file, and the
    modification time unless Info fails; times in nanoseconds *)
Record entry := Entry { d_name : string; d_regular : bool; d_mtime : option Z }.
Definition tmpMaxAge : Z := 3600000000000.
Definition removeStaleTempFiles (d : string) (entries : option (list entry)) (now : Z) : list string :=
  if String.eqb d "" || String.eqb d "." then []
  else match entries with
       | None => []
       | Some es => map d_name (filter (fun e =>
           d_regular e && String.prefix tmpPrefix (d_name e) &&
           match d_mtime e with None => false | Some t => negb (now - tmpMaxAge <? t)%Z end) es)
       end.

(** Writers side by side, and the removal of any temporary file at any time *)
Record sys := Sys { s_fs : fs; s_pcs : list pc }.
Inductive step (size : nat) (ws : list writer) : sys -> sys -> Prop :=
| step_writer k w p1 p p2 f f' p' : nth_error ws k = Some w -> length p1 = k -> wstep size w f p f' p' -> step size ws (Sys f (p1 ++ p :: p2)) (Sys f' (p1 ++ p' :: p2))
| step_clean f p ps : is_tmp p = true -> step size ws (Sys f ps) (Sys (set_dir (unlink p (f_dir f)) f) ps).
Inductive steps (size : nat) (ws : list writer) : sys -> sys -> Prop :=
| steps_refl s : steps size ws s s
| steps_step s s' s'' : steps size ws s s' -> step size ws s' s'' -> steps size ws s s''.
(** What may be found after a crash: of the process (the files as they are), or of the machine: a former directory, and anything in files
    that were not synced *)
Inductive crash (f : fs) : fs -> Prop :=
| crash_process : crash f f
| crash_machine d ns : (d = f_dir f \/ In d (f_old f)) -> Forall2 (fun n n' => n_safe n = true -> n' = n) (f_nodes f) ns -> crash f (FS d ns [] []).
