(** [HttpClient] and its connection pool, pkm/src/pkm/utils/http/http_client.py, and multipart bodies. *)
From Coq Require Import String Ascii List Bool NArith Arith.
From Verif Require Import Base ParserModel UrlModel.
Import ListNotations.
Open Scope string_scope.
Open Scope nat_scope.
Open Scope list_scope.
Open Scope bool_scope.

(** ** Connection pool: [_Connections] and [_ConnectionProxy], http_client.py:95-155 *)
(** connections are numbered in the order of their creation; [proxies]: the connection of the n-th proxy *)
Record conns := CS { cached : list nat; next_conn : nat; proxies : list (option nat); closed_ : bool; shut : list nat }.
Definition conns_new : conns := CS [] 0 [] false [].
Definition nat_mem (x : nat) (l : list nat) : bool := existsb (Nat.eqb x) l.
(** lines 127-139 [acquire]: [deque.pop] takes the last one *)
Definition acquire (s : conns) : conns :=
  match rev (cached s) with
  | c :: r => CS (rev r) (next_conn s) (proxies s ++ [Some c]) (closed_ s) (shut s)
  | [] => CS [] (S (next_conn s)) (proxies s ++ [Some (next_conn s)]) (closed_ s) (shut s)
  end.
(** lines 141-148 [_release] *)
Definition release_conn (limit : nat) (s : conns) (c : nat) : conns :=
  if nat_mem c (cached s) then s
  else if negb (closed_ s) && (length (cached s) <? limit)
       then CS (cached s ++ [c]) (next_conn s) (proxies s) (closed_ s) (shut s)
       else CS (cached s) (next_conn s) (proxies s) (closed_ s) (shut s ++ [c]).
Fixpoint clear_nth (l : list (option nat)) (i : nat) : list (option nat) :=
  match l, i with
  | [], _ => []
  | _ :: r, 0 => None :: r
  | x :: r, S j => x :: clear_nth r j
  end.
(** lines 109-113: [_ConnectionProxy.close] of proxy [i] is two steps, the call of [_release] and the assignment *)
Definition proxy_release (limit : nat) (s : conns) (i : nat) : conns :=
  match nth i (proxies s) None with Some c => release_conn limit s c | None => s end.
Definition proxy_clear (s : conns) (i : nat) : conns := CS (cached s) (next_conn s) (clear_nth (proxies s) i) (closed_ s) (shut s).
(** lines 150-155 [close] *)
Definition close_all (s : conns) : conns := CS [] (next_conn s) (proxies s) true (shut s ++ cached s).
Inductive pool_op := PAcquire | PRelease (i : nat) | PClear (i : nat) | PClose.
Definition pool_step (limit : nat) (s : conns) (o : pool_op) : conns :=
  match o with
  | PAcquire => acquire s
  | PRelease i => proxy_release limit s i
  | PClear i => proxy_clear s i
  | PClose => close_all s
  end.
Definition pool_run (limit : nat) (ops : list pool_op) : conns := fold_left (pool_step limit) ops conns_new.

(** ** [_request], http_client.py:319-358 *)
(** what happens on one connection *)
Inductive answer := AConnectionError | ARedirect (location : option str) | AResponse (status : nat).
Inductive reply := Reply (status : nat) | Failure (e : exn) | StillRunning.
(** [contacts]: the urls addressed so far; [srv n]: what the n-th connection meets.
    Simplification: an exception raised by the consumer of the response inside the with block is not modelled. *)
Fixpoint request_loop (fuel : nat) (max_redirects max_retries : nat) (srv : nat -> answer)
    (n redirects retries : nat) (u : url) (contacts : list url) : reply * list url :=
  if (retries <? max_retries) && (redirects <=? max_redirects) then
    match fuel with
    | 0 => (StillRunning, contacts)
    | S k =>
        let contacts := contacts ++ [u] in
        match srv n with
        | AConnectionError => request_loop k max_redirects max_retries srv (S n) redirects (S retries) u contacts
        | AResponse st => (Reply st, contacts)
        | ARedirect None => (Failure IOErr, contacts)
        | ARedirect (Some []) => (Failure IOErr, contacts)
        | ARedirect (Some (c :: r)) =>
            if Ascii.eqb c "/" then
              request_loop k max_redirects max_retries srv (S n) (S redirects) 0
                (Url (u_scheme u) (u_host u) (u_port u) (c :: r) (u_query u) (u_fragment u)) contacts
            else match url_parse (c :: r) with
                 | Ok u' => request_loop k max_redirects max_retries srv (S n) (S redirects) 0 u' contacts
                 | Err e => (Failure e, contacts)
                 end
        end
    end
  else (Failure IOErr, contacts).
(** the headers given by the caller are sent with every one of the [contacts] *)
Definition request (fuel max_redirects max_retries : nat) (srv : nat -> answer) (u : url) : reply * list url :=
  request_loop fuel max_redirects max_retries srv 0 0 0 u [].

(** ** [fetch_resource] for one url, http_client.py:383-460, called by any number of threads *)
(** the cache directives, cache_directive.py; [DAfter]: whether the stored fetch time is late enough *)
Inductive directive := DAlways | DAskUpdate | DAfter (late_enough : bool) | DNever.
Definition is_cache_valid (d : directive) : bool :=
  match d with DAlways => true | DAskUpdate => false | DAfter b => b | DNever => false end.
(** how a download ends: 200, 304, an [Exception], or an exception like KeyboardInterrupt *)
Inductive download := DlStored | DlNotModified | DlError | DlAbort.
Inductive fstate :=
| FIdle (d : directive)                     (* not called yet *)
| FPerform (p : nat) (d : directive)        (* owns promise p, line 411-447 not begun *)
| FDownload (p : nat)                       (* inside _request *)
| FDeliver (p : nat) (ok : bool)            (* about to settle promise p, 453-456 *)
| FWait (p : nat)                           (* line 449-451 or 458 *)
| FEnd (ok : bool)
| FAborted.
(** [in_progress]: [_fetch_inprogress.get(url)]; [settled_p]: results of the promises; [server]: number of contacts *)
Record fclient := FC { in_progress : option nat; promises_made : nat; settled_p : list (nat * bool);
                       stored : bool; server : nat; callers : list fstate }.
Definition settled_of (l : list (nat * bool)) (p : nat) : option bool :=
  match find (fun e => Nat.eqb (fst e) p) l with Some e => Some (snd e) | None => None end.
Fixpoint put_nth {A} (l : list A) (i : nat) (x : A) : list A :=
  match l, i with
  | [], _ => []
  | _ :: r, 0 => x :: r
  | y :: r, S j => y :: put_nth r j x
  end.
(** one step of caller [i]; [dl]: how the download ends, should this step end one; [bad_info]: the fetch info file
    cannot be read (line 414) *)
Definition fetch_step (s : fclient) (i : nat) (dl : download) (bad_info : bool) : fclient :=
  match nth i (callers s) (FEnd true) with
  | FIdle d =>
      match in_progress s with
      | Some p => FC (in_progress s) (promises_made s) (settled_p s) (stored s) (server s) (put_nth (callers s) i (FWait p))
      | None => let p := promises_made s in
                FC (Some p) (S p) (settled_p s) (stored s) (server s) (put_nth (callers s) i (FPerform p d))
      end
  | FPerform p d =>
      if bad_info then FC (in_progress s) (promises_made s) (settled_p s) (stored s) (server s) (put_nth (callers s) i (FDeliver p false))
      else if stored s && is_cache_valid d
      then (* cache hit: [_fetch_inprogress] is not touched *)
           FC (in_progress s) (promises_made s) (settled_p s) (stored s) (server s) (put_nth (callers s) i (FDeliver p true))
      else FC (in_progress s) (promises_made s) (settled_p s) (stored s) (S (server s)) (put_nth (callers s) i (FDownload p))
  | FDownload p =>
      match dl with
      | DlStored => FC None (promises_made s) (settled_p s) true (server s) (put_nth (callers s) i (FDeliver p true))
      | DlNotModified => FC None (promises_made s) (settled_p s) (stored s) (server s) (put_nth (callers s) i (FDeliver p true))
      | DlError => FC None (promises_made s) (settled_p s) false (server s) (put_nth (callers s) i (FDeliver p false))
      | DlAbort => FC None (promises_made s) (settled_p s) false (server s) (put_nth (callers s) i FAborted)
      end
  | FDeliver p ok =>
      FC (in_progress s) (promises_made s) ((p, ok) :: settled_p s) (stored s) (server s) (put_nth (callers s) i (FWait p))
  | FWait p =>
      match settled_of (settled_p s) p with
      | Some ok => FC (in_progress s) (promises_made s) (settled_p s) (stored s) (server s) (put_nth (callers s) i (FEnd ok))
      | None => s
      end
  | FEnd _ | FAborted => s
  end.
Definition fetch_start (stored0 : bool) (ds : list directive) : fclient := FC None 0 [] stored0 0 (map FIdle ds).
Definition fetch_run (s : fclient) (sched : list (nat * download * bool)) : fclient :=
  fold_left (fun s e => fetch_step s (fst (fst e)) (snd (fst e)) (snd e)) sched s.

(** ** Multipart bodies, utils/http/mfd_payload.py *)
Definition crlf : str := ["013"; "010"]%char.
(** lines 12-36: a rendered field (headers with their final blank line) and its payload *)
Record field := Field { f_headers : list (str * str); f_payload : str; f_stream : bool }.
(** lines 31-35 [render]: the sorted ones first *)
Definition sorted_headers : list str := [lit "Content-Disposition"; lit "Content-Type"; lit "Content-Location"].
Definition header_line (h : str * str) : str := fst h ++ lit ": " ++ snd h.
Definition render (f : field) : str :=
  join crlf (flat_map (fun k => match dict_get k (f_headers f) with Some v => [header_line (k, v)] | None => [] end) sorted_headers
             ++ map header_line (filter (fun h => negb (match snd h with [] => true | _ => false end) && negb (str_mem (fst h) sorted_headers)) (f_headers f))
             ++ [crlf]).
(** utils/io_streams.py:22-41 [chunks] of a stream that delivers as much as asked for *)
Fixpoint chunks (fuel size : nat) (s : str) : list str :=
  match fuel, s with
  | 0, _ => []
  | _, [] => []
  | S k, _ => firstn size s :: chunks k size (skipn size s)
  end.
(** mfd_payload.py:48-67 [__iter__]: the pieces in order *)
Definition field_pieces (boundary : str) (size : nat) (f : field) : list str :=
  [lit "--" ++ boundary ++ crlf; render f]
  ++ (if f_stream f then chunks (length (f_payload f)) size (f_payload f) else [f_payload f])
  ++ [crlf].
Definition body_pieces (boundary : str) (size : nat) (fs : list field) : list str := flat_map (field_pieces boundary size) fs.
