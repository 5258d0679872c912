(** blocklistloader-http.go, blocklistloader-local.go, blocklistloader-static.go, with the bufio.Scanner they read lines with.
    A file or response body is what can be read from it, and whether reading it ends with an error other than the end of the data. *)
From Verif Require Import Base Bytes.
Local Open Scope N_scope.

Notation rule := (list N).
(** What reading yields: the data, whether an error follows it, and whether the end is reported together with the last data *)
Record source := Source { s_data : list N; s_error : bool; s_together : bool }.

(** bufio.ScanLines: dropCR *)
Definition dropCR (l : list N) : list N := match rev l with 13 :: r => rev r | _ => l end.
Section SCAN.
(** bufio.MaxScanTokenSize *)
Variable max : N.
Variable together : bool.
(** bufio.Scanner.Scan to its end: the lines, and whether a line was too long. [acc] (reversed) of [n] bytes is in the buffer. *)
Fixpoint scan (acc : list N) (n : N) (l : list N) : list rule * bool :=
  match l with
  | [] => (match acc with [] => [] | _ => [dropCR (rev acc)] end, false)
  | c :: l' =>
      if c =? 10 then let r := scan [] 0 l' in (dropCR (rev acc) :: fst r, snd r)
      else if n + 1 <? max then scan (c :: acc) (n + 1) l'
      else match l' with
           | [] => if together then ([dropCR (rev (c :: acc))], false) else ([], true)
           | _ => ([], true)
           end
  end.
End SCAN.
Definition maxScanTokenSize : N := 65536.
(** The loops over scanner.Scan (blocklistloader-http.go:91-94, 118-121, blocklistloader-local.go:50-53): rules and scanner.Err() != nil *)
Definition read_rules (s : source) : list rule * bool :=
  let r := scan maxScanTokenSize (s_together s) [] 0 (s_data s) in (fst r, snd r || s_error s).

(** blocklistloader-http.go:16-21, 24-29: the options and the fields that change *)
Record loader := Loader { fromDisk : bool; lastSuccess : list rule }.
Record options := Options { cacheDir : bool; allowFailure : bool }.   (* cacheDir: whether one was given *)
(** blocklistloader-http.go:35-42 NewHTTPLoader *)
Definition newHTTPLoader (o : options) : loader := Loader (cacheDir o) [].

(** What the world does during one call: how the cache file reads, if it can be opened; the response, if there is one, by status and
    body; and whether the cache file could be written *)
Record world := World { w_disk : option source; w_http : option (N * source); w_write : bool }.
(** What is done: a read of the cache file, a request, the replacement of the cache file by this content *)
Inductive event := ReadCache | Request | WriteCache (data : list N).

(** blocklistloader-http.go:111-123 loadFromDisk: error as None *)
Definition loadFromDisk (w : world) : option (list rule) :=
  match w_disk w with
  | None => None
  | Some s => let r := read_rules s in if snd r then None else Some (fst r)
  end.
(** blocklistloader-http.go:125-137 writeToDisk: what the function passed to writeFileAtomic writes *)
Definition cache_chunks (rules : list rule) : list (list N) := flat_map (fun r => [r; [10]]) rules.
Definition cache_data (rules : list rule) : list N := List.concat (cache_chunks rules).
(** blocklistloader-http.go:67-107, Load without the deferred function: events, rules, error *)
Definition download (o : options) (w : world) : list event * list rule * bool :=
  match w_http w with
  | None => ([Request], [], true)
  | Some (status, body) =>
      if (status <? 200) || (299 <? status) then ([Request], [], true)
      else let r := read_rules body in
           (Request :: (if negb (snd r) && cacheDir o && w_write w then [WriteCache (cache_data (fst r))] else []), fst r, snd r)
  end.
Definition load_body (o : options) (l : loader) (w : world) : list event * list rule * bool :=
  if fromDisk l then
    match loadFromDisk w with
    | Some rules => ([ReadCache], rules, false)
    | None => let '(ev, rules, err) := download o w in (ReadCache :: ev, rules, err)
    end
  else download o w.
(** blocklistloader-http.go:50-59, the deferred function *)
Definition finish (allow : bool) (last : list rule) (rules : list rule) (err : bool) : list rule * bool * list rule :=
  if err && allow then (last, false, last) else (rules, err, rules).
(** blocklistloader-http.go:44-107 Load: rules and error, what is done, the loader after it *)
Definition load (o : options) (l : loader) (w : world) : (list rule * bool) * list event * loader :=
  let '(ev, rules, err) := load_body o l w in
  let '(rules', err', last) := finish (allowFailure o) (lastSuccess l) rules err in
  ((rules', err'), ev, Loader false last).
(** Calls one after the other; each list has one loader, used by one goroutine *)
Fixpoint loads (o : options) (l : loader) (ws : list world) : list ((list rule * bool) * list event) :=
  match ws with
  | [] => []
  | w :: ws' => let '(r, ev, l') := load o l w in (r, ev) :: loads o l' ws'
  end.

(** blocklistloader-local.go:28-56 Load of a file that reads as [f], if it can be opened *)
Definition file_load (allow : bool) (last : list rule) (f : option source) : (list rule * bool) * list rule :=
  let '(rules, err) := match f with None => ([], true) | Some s => read_rules s end in
  let '(rules', err', last') := finish allow last rules err in ((rules', err'), last').
Fixpoint file_loads (allow : bool) (last : list rule) (fs : list (option source)) : list (list rule * bool) :=
  match fs with [] => [] | f :: fs' => let '(r, last') := file_load allow last f in r :: file_loads allow last' fs' end.

(** blocklistloader-static.go:15-17 *)
Definition static_load (rules : list rule) : list rule * bool := (rules, false).
