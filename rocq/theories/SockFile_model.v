(** The socket file of the xsocket server: xsocketserver_linux.go:91-121 listen, and Close of net.UnixListener. Any number of servers
    with one path, each of them started once and stopped at most once, side by side, and other programs that change what is at the path.
    The kernel: bind makes the socket file and fails if anything is there; listen is a call of its own; connect fails with ECONNREFUSED if
    what is there is no socket, or a socket that nobody listens on. An abstract name goes with the socket. *)
From Verif Require Import Base.
Local Open Scope nat_scope.

(** What connecting gives: a connection, ECONNREFUSED, or another error *)
Inductive conres := Accepted | Refused | Error.
(** What is at the path: a socket file that a server made, or anything else, with what connecting to it gives and whether it is a directory *)
Inductive node := Sock (ino : nat) (mode : N) | Foreign (c : conres) (dir : bool).
Inductive result := Stopped | InUse | Failed | Died.
Inductive pc :=
| Bind (again : bool)                (* net.ListenUnix, up to bind; again: the second time *)
| Listen (ino : nat)                 (* net.ListenUnix: listen *)
| Dial
| Remove
| Chmod (ino : nat)
| Serving (ino : nat)                (* listen has returned *)
| Unlink (ino : nat) (r : result)    (* Close: first the file *)
| Close (ino : nat) (r : result)     (* then the socket *)
| Ended (r : result).
Record st := St { entry : option node; next : nat; pcs : list pc }.
Definition init (e : option node) : st := St e 0 [].

Section SERVERS.
(** Is the path abstract; SocketMode of each server; the mode that bind gives to the file *)
Variable abstract : bool.
Variable modes : nat -> N.
Variable dflt : N.

(** The socket that a server has; does it listen on it *)
Definition socket (p : pc) : option nat :=
  match p with Listen n | Chmod n | Serving n | Unlink n _ | Close n _ => Some n | _ => None end.
Definition listens (n : nat) (p : pc) : bool :=
  match p with Chmod m | Serving m | Unlink m _ | Close m _ => n =? m | _ => false end.
(** connect. [ok] is false if there is another error: no permission, or too many connections wait *)
Definition connect (ok : bool) (s : st) : conres :=
  if ok then
    match entry s with
    | None => Error
    | Some (Foreign c _) => c
    | Some (Sock n _) => if existsb (listens n) (pcs s) then Accepted else Refused
    end
  else Error.
Fixpoint put {A} (i : nat) (x : A) (l : list A) : list A :=
  match i, l with O, _ :: l' => x :: l' | S i', y :: l' => y :: put i' x l' | _, [] => [] end.
Definition goto (i : nat) (p : pc) (s : st) : st := St (entry s) (next s) (put i p (pcs s)).
Definition with_entry (e : option node) (s : st) : st := St e (next s) (pcs s).
(** A socket is closed: an abstract name goes with it *)
Definition release (n : nat) (s : st) : st :=
  match abstract, entry s with true, Some (Sock m _) => if n =? m then with_entry None s else s | _, _ => s end.

(** The next step of server i. [ok]: the system call succeeds if what is at the path lets it *)
Definition go (i : nat) (ok : bool) (p : pc) (s : st) : option st :=
  match p with
  (* xsocketserver_linux.go:93-95, 108; 110-112 *)
  | Bind again =>
      Some (if ok then
              match entry s with
              | None => St (Some (Sock (next s) dflt)) (S (next s)) (put i (Listen (next s)) (pcs s))
              | Some _ => goto i (if abstract || again then Ended Failed else Dial) s
              end
            else goto i (Ended Failed) s)
  (* net.ListenUnix: if listen fails the socket is closed, and the file stays. 113 *)
  | Listen n => Some (if ok then goto i (if (modes i =? 0)%N || abstract then Serving n else Chmod n) s else release n (goto i (Ended Failed) s))
  (* 98-103 *)
  | Dial => Some (goto i (match connect ok s with Accepted => Ended InUse | Error => Ended Failed | Refused => Remove end) s)
  (* 105-107: os.Remove, whatever is there now *)
  | Remove =>
      Some (match ok, entry s with
            | true, Some _ => with_entry None (goto i (Bind true) s)
            | _, _ => goto i (Ended Failed) s
            end)
  (* 114-117: the mode of whatever is there now *)
  | Chmod n =>
      Some (match ok, entry s with
            | true, Some (Sock m _) => with_entry (Some (Sock m (modes i))) (goto i (Serving n) s)
            | true, Some _ => goto i (Serving n) s
            | _, _ => goto i (Unlink n Failed) s
            end)
  | Serving _ => None
  (* Close of net.UnixListener: unlink, whatever is there now but a directory; an error is ignored *)
  | Unlink n r =>
      Some (let s' := goto i (Close n r) s in
            if abstract then s'
            else match ok, entry s with
                 | true, Some (Foreign _ true) => s'
                 | true, Some _ => with_entry None s'
                 | _, _ => s'
                 end)
  | Close n r => Some (release n (goto i (Ended r) s))
  | Ended _ => None
  end.
Definition alive (p : pc) : bool := match p with Ended _ => false | _ => true end.
(** Go: a server makes its next step; New: one more server is started; Stop: Stop is called while the server serves (lines 81-89);
    Die: its process ends; Env: other programs change what is at the path *)
Inductive label := New | Go (i : nat) (ok : bool) | Stop (i : nat) | Die (i : nat) | Env (e : option (conres * bool)).
Definition step (a : label) (s : st) : option st :=
  match a with
  | New => Some (St (entry s) (next s) (pcs s ++ [Bind false]))
  | Go i ok => match nth_error (pcs s) i with Some p => go i ok p s | None => None end
  | Stop i => match nth_error (pcs s) i with Some (Serving n) => Some (goto i (Unlink n Stopped) s) | _ => None end
  | Die i => match nth_error (pcs s) i with
             | Some p => if alive p then Some (match socket p with Some n => release n (goto i (Ended Died) s) | None => goto i (Ended Died) s end) else None
             | None => None
             end
  | Env e => Some (with_entry (match e with Some (c, d) => Some (Foreign c d) | None => None end) s)
  end.
Fixpoint run (ls : list label) (s : st) : option st :=
  match ls with [] => Some s | a :: ls' => match step a s with Some s' => run ls' s' | None => None end end.
End SERVERS.
