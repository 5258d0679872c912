(** C86: the loggers of a query. *)
From Verif Require Import Base Bytes Dns QLog_model QLog_spec QLog_proofs.
Local Open Scope Z_scope.

(** Whatever loggers were made from which, in whatever order, with whatever room append leaves: a call logs nothing and changes nothing if its level is below that of the
    slog.Logger that was Log when the first of the line was made; otherwise one record goes there, with the element, the client, the query as it is now, what is known of the
    listener, the arguments of the calls of With that led to this logger and of no other, in order, and those of the call. *)
Theorem C86_record : forall typeName level_of d l s g made i a level text args, lrun typeName level_of (linit d) l = Some s -> history d [] l = (g, made) -> nth_error made i = Some a ->
  let dst := match a_dst a with Some x => x | None => g end in
  exists s', lstep typeName level_of s (ELog i level text args) = Some s' /\
  if level <? level_of dst then s' = s
  else exists r, recorded typeName (messages s) a args r /\ s' = LState (mem s) (messages s) (global s) (loggers s) (out s ++ [Entry dst level text r]).
Proof. exact record_spec. Qed.
Print Assumptions C86_record.
(** With always gives a copy; *)
Theorem C86_with : forall typeName level_of d l s g made i a args spare, lrun typeName level_of (linit d) l = Some s -> history d [] l = (g, made) -> nth_error made i = Some a ->
  exists s', lstep typeName level_of s (EWith i args spare) = Some s'.
Proof. exact with_spec. Qed.
Print Assumptions C86_with.
(** what a logger has collected stays, whatever happens later, *)
Theorem C86_stays : forall l l' d i a, nth_error (snd (history d [] l)) i = Some a -> nth_error (snd (history d [] (l ++ l'))) i = Some a.
Proof. exact (fun l l' d i a H => eq_ind_r (fun x => nth_error (snd x) i = Some a) (history_keeps l' _ _ i a H) (history_app l l' d [])). Qed.
Print Assumptions C86_stays.
(** and no step writes to memory that was there before, so goroutines may share a logger. *)
Theorem C86_readonly : forall typeName level_of s e s', lstep typeName level_of s e = Some s' ->
  (exists y, mem s' = mem s ++ y) /\ (exists y, loggers s' = loggers s ++ y) /\ exists y, out s' = out s ++ y.
Proof. exact readonly. Qed.
Print Assumptions C86_readonly.
(** Keys with values, and attributes, come out as given, also if several calls of With gave them. *)
Theorem C86_attrs : forall l r l', paired l r -> attrs_of (l ++ l') = r ++ attrs_of l'.
Proof. exact attrs_app. Qed.
Print Assumptions C86_attrs.
(** The levels of the command line: 0 and 1 show nothing, 2 errors, 3 warnings too, 4 information too, 5 and 6 all; others are refused. *)
Theorem C86_levels : forall n v, slogLevel n = Some v ->
  (n <= 6)%N /\ (v <= LevelDebug <-> (5 <= n)%N) /\ (v <= LevelInfo <-> (4 <= n)%N) /\ (v <= LevelWarn <-> (3 <= n)%N) /\ (v <= LevelError <-> (2 <= n)%N).
Proof. exact level_spec. Qed.
Print Assumptions C86_levels.
Theorem C86_level_error : forall n, slogLevel n = None <-> (6 < n)%N.
Proof. exact level_none. Qed.
Print Assumptions C86_level_error.

(** ** Two copies of one logger, with room to spare in the array they share *)
Local Open Scope string_scope.
Local Open Scope list_scope.
Definition tn (n : N) : string := if N.eqb n 1 then "A" else "".
Definition lv (n : nat) : Z := match n with O => LevelInfo | _ => LevelDebug end.
Definition who : linfo := LInfo [192;0;2;1]%N "udp" ":53" "".
Definition ask (n : string) : msg := set_question [Q n 1 1] empty_msg.
Definition ctx (n : string) : list attr :=
  [("id", VStr "r"); ("client", VIP [192;0;2;1]%N); ("qtype", VStr "A"); ("qname", VStr n); ("protocol", VStr "udp"); ("addr", VStr ":53")].
Example C86_ex_copies : option_map out (lrun tn lv (linit 0) [EMessage 5 (ask "a."); ENew "r" (Some 5%nat) who; EWith 0 [AStr "k"; AOther 1] 7; EWith 1 [AStr "x"; AStr "1"] 7; EWith 1 [AStr "y"; AStr "2"] 7;
    ELog 2 LevelInfo "m" [AStr "e"; AOther 3]; ELog 3 LevelDebug "quiet" []; EGlobal 1; ELog 3 LevelInfo "n" []]) =
  Some [Entry 0 LevelInfo "m" (ctx "a." ++ [("k", VOther 1); ("x", VStr "1"); ("e", VOther 3)]); Entry 0 LevelInfo "n" (ctx "a." ++ [("k", VOther 1); ("y", VStr "2")])].
Proof. reflexivity. Qed.
Example C86_ex_history : history 0 [] [ENew "r" (Some 5%nat) who; EWith 0 [AStr "k"; AOther 1] 7; EGlobal 1; EBare "b" None who] =
  (1%nat, [Abs (Some 0%nat) "r" (Some 5%nat) who []; Abs (Some 0%nat) "r" (Some 5%nat) who [AStr "k"; AOther 1]; Abs None "b" None who []]).
Proof. reflexivity. Qed.
Example C86_ex_paired : paired [AStr "k"; AOther 1; AAttr "x" (VStr "1")] [("k", VOther 1); ("x", VStr "1")].
Proof. repeat constructor. Qed.

(** ** Keys without a value take the first argument of the next call of With as theirs, where those of slog.Logger do not *)
Theorem C86_odd_refuted : exists l l', attrs_of (l ++ l') <> attrs_of l ++ attrs_of l' /\
  option_map out (lrun tn lv (linit 0) [ENew "r" None who; EWith 0 l 0; EWith 1 l' 0; ELog 2 LevelInfo "m" []]) =
  Some [Entry 0 LevelInfo "m" [("id", VStr "r"); ("client", VIP [192;0;2;1]%N); ("protocol", VStr "udp"); ("addr", VStr ":53"); ("a", VStr "b")]].
Proof. exists [AStr "a"], [AStr "b"]. split; [discriminate|reflexivity]. Qed.
Print Assumptions C86_odd_refuted.
(** ** The query is read when something is logged: one that was changed in place meanwhile is logged as it has become *)
Theorem C86_late_refuted : option_map out (lrun tn lv (linit 0) [EMessage 5 (ask "a."); ENew "r" (Some 5%nat) who; EMessage 5 (ask "b."); ELog 0 LevelInfo "m" []]) =
  Some [Entry 0 LevelInfo "m" (ctx "b.")].
Proof. reflexivity. Qed.
Print Assumptions C86_late_refuted.
