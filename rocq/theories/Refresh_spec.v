(** Which databases are in use, from what was installed *)
From Verif Require Import Base Refresh_model.

Fixpoint put {A} (j : nat) (d : A) (l : list A) : list A :=
  match l, j with [], _ => [] | _ :: l', O => d :: l' | x :: l', S j' => x :: put j' d l' end.
(** The databases after these installations (newest first) *)
Fixpoint installed (l : list db) (log : list event) : list db :=
  match log with [] => l | Install j d :: r => put j d (installed l r) | _ :: r => installed l r end.
Definition is_install (e : event) : Prop := exists j d, e = Install j d.
(** The query has a claim on the databases: it matches against them now or will do so. *)
Definition uses (q : qpc) (d : db) : Prop := match q with InLock ds | Snapped ds => In d ds | _ => False end.
