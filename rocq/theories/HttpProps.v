(** Properties C26, C27, C28, C29, C56, C57: the http client. *)
From Coq Require Import String Ascii List Bool NArith Arith Lia.
From Verif Require Import Base BaseFacts ParserModel UrlModel HttpModel HttpProofs.
Import ListNotations.
Open Scope string_scope.
Open Scope nat_scope.
Open Scope list_scope.
Open Scope bool_scope.

(** *** C26: concurrent fetches of one url *)
(** at most one of any number of concurrent callers is contacting the server, under every schedule (aborts included) *)
Theorem C26_one_download_at_a_time : forall stored0 ds sched i j p q,
  caller (fetch_run (fetch_start stored0 ds) sched) i = FDownload p ->
  caller (fetch_run (fetch_start stored0 ds) sched) j = FDownload q -> i = j.
Proof. intros st ds sched i j p q A B. exact (g_one _ (finv2_run sched _ (finv2_start st ds)) i j p q (or_intror A) (or_intror B)). Qed.
(** no caller waits forever, as long as no download is interrupted by something that is not an Exception: when no
    caller can move, each of them has returned or raised *)
Theorem C26_nobody_waits_forever_partial : forall stored0 ds sched, no_abort sched ->
  (forall i dl bad, fetch_step (fetch_run (fetch_start stored0 ds) sched) i dl bad = fetch_run (fetch_start stored0 ds) sched) ->
  forall i, exists ok, caller (fetch_run (fetch_start stored0 ds) sched) i = FEnd ok.
Proof.
  intros st ds sched NA ST i. apply stuck_means_done; [apply finv_run; [apply finv_start|exact NA]| |exact ST].
  apply no_abort_state; [|exact NA]. intro j. destruct (caller_start st ds j) as [(d & E)|E]; rewrite E; discriminate.
Qed.
(** a caller that waits and cannot go on yet waits for another caller that is still at work *)
Theorem C26_waits_for_somebody_partial : forall stored0 ds sched i p, no_abort sched ->
  caller (fetch_run (fetch_start stored0 ds) sched) i = FWait p ->
  settled_of (settled_p (fetch_run (fetch_start stored0 ds) sched)) p = None ->
  exists j, j <> i /\ ((exists d, caller (fetch_run (fetch_start stored0 ds) sched) j = FPerform p d) \/
                       caller (fetch_run (fetch_start stored0 ds) sched) j = FDownload p \/
                       exists ok, caller (fetch_run (fetch_start stored0 ds) sched) j = FDeliver p ok).
Proof.
  intros st ds sched i p NA E NS. pose proof (finv_run sched _ (finv_start st ds) NA) as V. set (s := fetch_run (fetch_start st ds) sched) in *.
  destruct (f_promise s V p) as [X|(j & X)].
  - apply (f_known s V i p). right. right. exact E.
  - contradiction.
  - exists j. split.
    + intros ->. rewrite E in X. destruct X as [[(d & X)|X]|(ok & X)]; discriminate.
    + destruct X as [[X|X]|X]; auto.
Qed.
(** a download that ends by an exception like KeyboardInterrupt never settles the promise: the waiter stays *)
Theorem C26_waiter_after_interrupt_refuted : exists ds sched, 
  caller (fetch_run (fetch_start false ds) sched) 0 = FAborted /\
  forall more, caller (fetch_run (fetch_run (fetch_start false ds) sched) more) 1 = FWait 0.
Proof.
  exists [DAlways; DAlways], [(0, DlStored, false); (1, DlStored, false); (0, DlStored, false); (0, DlAbort, false)].
  split; [reflexivity|].
  set (s := fetch_run _ _). vm_compute in s. subst s.
  intro more.
  assert (G : forall more sv, fetch_run (FC None 1 [] false sv [FAborted; FWait 0]) more = FC None 1 [] false sv [FAborted; FWait 0]).
  { induction more0 as [|[[i dl] bad] m IH]; intro sv; [reflexivity|]. cbn [fetch_run fold_left fst snd]. 
    assert (E : fetch_step (FC None 1 [] false sv [FAborted; FWait 0]) i dl bad = FC None 1 [] false sv [FAborted; FWait 0]) by (destruct i as [|[|[|i]]]; reflexivity).
    rewrite E. apply IH. }
  rewrite G. reflexivity.
Qed.
Example C26_witness : 
  map (caller (fetch_run (fetch_start false [DNever; DAlways]) [(0, DlStored, false); (1, DlStored, false); (0, DlStored, false)])) [0; 1] = [FDownload 0; FWait 0] /\
  server (fetch_run (fetch_start false [DNever; DAlways]) [(0, DlStored, false); (1, DlStored, false); (0, DlStored, false); (0, DlStored, false); (0, DlStored, false); (0, DlStored, false); (1, DlStored, false)]) = 1 /\
  map (caller (fetch_run (fetch_start false [DNever; DAlways]) [(0, DlStored, false); (1, DlStored, false); (0, DlStored, false); (0, DlStored, false); (0, DlStored, false); (0, DlStored, false); (1, DlStored, false)])) [0; 1] = [FEnd true; FEnd true].
Proof. repeat split; reflexivity. Qed.

(** *** C27: cache directives *)
(** as long as every caller asks for a check with the server, each request that does not join a running one asks it *)
Theorem C27_refreshing_requests_ask_the_server_partial : forall stored0 ds sched i d dl,
  Forall (fun d => is_cache_valid d = false) ds -> good_info sched ->
  let s := fetch_run (fetch_start stored0 ds) sched in
  (forall j p, ~ active (caller s j) p) -> caller s i = FIdle d ->
  server (fetch_run s [(i, dl, false); (i, dl, false)]) = S (server s).
Proof. intros st ds sched i d dl HD G s NA E. exact (refresh_asks st ds sched i d dl HD G NA E). Qed.
(** one request that is answered from the cache leaves an entry behind: no later request, whatever its directive,
    contacts the server again *)
Theorem C27_update_ignored_after_a_hit_refuted : exists stored0 d more_ds first,
  is_cache_valid DAskUpdate = false /\ In DAskUpdate more_ds /\
  caller (fetch_run (fetch_start stored0 (d :: more_ds)) first) 0 = FEnd true /\
  forall later, server (fetch_run (fetch_run (fetch_start stored0 (d :: more_ds)) first) later) = 0.
Proof.
  exists true, DAlways, [DAskUpdate; DNever], [(0, DlStored, false); (0, DlStored, false); (0, DlStored, false); (0, DlStored, false)].
  split; [reflexivity|]. split; [left; reflexivity|]. split; [reflexivity|]. intro later.
  rewrite (stale_forever later _ 0); [reflexivity|reflexivity|]. intros [|[|[|i]]] q [(d & A)|A]; vm_compute in A; try discriminate; destruct i; discriminate.
Qed.
(** the same in general: an entry without a caller at work is never removed *)
Theorem C27_stale_entry_is_final : forall s p, in_progress s = Some p -> (forall i q, ~ active (caller s i) q) ->
  forall sched, server (fetch_run s sched) = server s.
Proof. intros s p IP NA sched. exact (stale_forever sched s p IP NA). Qed.
Example C27_witness : 
  let s := fetch_run (fetch_start true [DAskUpdate; DNever]) [(0, DlStored, false); (0, DlStored, false); (0, DlNotModified, false); (0, DlStored, false); (0, DlStored, false)] in
  Forall (fun d => is_cache_valid d = false) [DAskUpdate; DNever] /\ caller s 0 = FEnd true /\ caller s 1 = FIdle DNever /\ server s = 1 /\ forall j p, ~ active (caller s j) p.
Proof.
  cbv zeta. split; [apply Forall_cons; [reflexivity|apply Forall_cons; [reflexivity|apply Forall_nil]]|]. split; [reflexivity|]. split; [reflexivity|]. split; [reflexivity|].
  intros [|[|j]] p [(d & A)|A]; vm_compute in A; try discriminate; destruct j; discriminate.
Qed.

(** *** C28: redirects and retries *)
Theorem C28_contacts_bounded : forall max_redirects max_retries srv u fuel,
  length (snd (request fuel max_redirects max_retries srv u)) <= S max_redirects * max_retries.
Proof.
  intros mr mt srv u fuel. unfold request. pose proof (request_bound mr mt srv fuel 0 0 0 u [] (Nat.le_0_l _)) as H. destruct (request_loop _ _ _ _ _ _ _ _ _) as [r cs].
  cbn [length Nat.add Nat.sub] in H. cbn [snd]. lia.
Qed.
Theorem C28_always_ends : forall max_redirects max_retries srv u fuel, S max_redirects * max_retries <= fuel ->
  fst (request fuel max_redirects max_retries srv u) <> StillRunning.
Proof. intros mr mt srv u fuel L. unfold request. apply request_ends; [lia|]. cbn [Nat.sub]. lia. Qed.
(** requests that are only redirected with paths keep scheme, host and port *)
Theorem C28_headers_stay_home_partial : forall max_redirects max_retries srv u fuel,
  (forall n, match srv n with ARedirect (Some (c :: _)) => c = "/"%char | _ => True end) ->
  Forall (fun v => u_scheme u = u_scheme v /\ u_host u = u_host v /\ u_port u = u_port v) (snd (request fuel max_redirects max_retries srv u)).
Proof. intros mr mt srv u fuel H. apply (request_home mr mt srv u H); [repeat split|apply Forall_nil]. Qed.
(** a redirect to another host takes the headers (and the credentials in them) along *)
Theorem C28_credentials_leave_refuted : exists srv u v, In v (snd (request 10 5 3 srv u)) /\ u_host v <> u_host u.
Proof.
  exists (fun n => match n with 0 => ARedirect (Some (lit "http://evil/x")) | _ => AResponse 200 end), (Url "https" "good" 443 "/x" [] []), (Url "http" "evil" 80 "/x" [] []).
  split; [vm_compute; right; left; reflexivity|discriminate].
Qed.
Example C28_witness : request 6 1 3 (fun n => match n with 0 => AConnectionError | 1 => ARedirect (Some (lit "/y")) | _ => AResponse 200 end) (Url "https" "good" 443 "/x" [] [])
  = (Reply 200, [Url "https" "good" 443 "/x" [] []; Url "https" "good" 443 "/x" [] []; Url "https" "good" 443 "/y" [] []]).
Proof. reflexivity. Qed.

(** *** C29: the connection pool *)
(** every proxy is released at most once: the connection of a proxy in use is not in the pool, not closed, and not
    shared with another proxy in use *)
Theorem C29_exclusive_use_partial : forall limit ops, NoDup (releases ops) -> forall i c,
  ~ In i (releases ops) -> nth i (proxies (pool_run limit ops)) None = Some c ->
  ~ In c (cached (pool_run limit ops)) /\ ~ In c (shut (pool_run limit ops)) /\
  forall j, j <> i -> ~ In j (releases ops) -> nth j (proxies (pool_run limit ops)) None <> Some c.
Proof.
  intros limit ops ND i c NI H. pose proof (pool_inv limit ops ND) as V. destruct (p_held _ _ _ V i c NI H) as [A B]. split; [exact A|]. split; [exact B|].
  intros j NE NJ HJ. apply NE. exact (p_excl _ _ _ V j i c NJ NI HJ H).
Qed.
Theorem C29_pooled_connections_open_and_distinct_partial : forall limit ops, NoDup (releases ops) ->
  NoDup (cached (pool_run limit ops)) /\ forall c, In c (cached (pool_run limit ops)) -> ~ In c (shut (pool_run limit ops)).
Proof.
  intros limit ops ND. pose proof (pool_inv limit ops ND) as V. split; [exact (p_nodup _ _ _ V)|]. intros c H X. exact (proj1 (p_shut _ _ _ V c X) H).
Qed.
Theorem C29_limit : forall limit ops, length (cached (pool_run limit ops)) <= limit.
Proof. intros limit ops. apply (run_limit limit ops conns_new). split; [apply Nat.le_0_l|reflexivity]. Qed.
Theorem C29_closed_keeps_nothing : forall limit ops, In PClose ops -> cached (pool_run limit ops) = [].
Proof.
  intros limit ops H. apply (run_limit limit ops conns_new); [split; [apply Nat.le_0_l|reflexivity]|]. apply closed_after. right. exact H.
Qed.
(** two threads that close the same proxy at the same time put a connection in use back into the pool *)
Theorem C29_racing_double_close_refuted : exists limit ops i j c, i <> j /\ ~ In i (releases ops) /\ ~ In j (releases ops) /\
  nth i (proxies (pool_run limit ops)) None = Some c /\ nth j (proxies (pool_run limit ops)) None = Some c.
Proof.
  exists 2, [PAcquire; PRelease 0; PAcquire; PRelease 0; PClear 0; PClear 0; PAcquire], 1, 2, 0. repeat split; try reflexivity; try discriminate; cbn; intros [H|[H|[]]]; discriminate.
Qed.
Example C29_witness : let s := pool_run 2 [PAcquire; PAcquire; PRelease 0; PClear 0; PAcquire; PRelease 1; PClear 1] in
  NoDup (releases [PAcquire; PAcquire; PRelease 0; PClear 0; PAcquire; PRelease 1; PClear 1]) /\ nth 2 (proxies s) None = Some 0 /\ cached s = [1].
Proof. cbv zeta. split; [cbn; apply NoDup_cons; [intros [H|[]]; discriminate|apply NoDup_cons; [intros []|apply NoDup_nil]]|split; reflexivity]. Qed.

(** *** C56: urls *)
Theorem C56_print_parse : forall u, wf_url u -> url_parse (show_url u) = Ok u.
Proof. exact url_round. Qed.
(** whatever text was parsed, the printed url parses back to the same url, provided the url has a scheme and an
    absolute or empty path *)
Theorem C56_reparse_partial : forall t u, url_parse t = Ok u -> u_scheme u <> [] ->
  (u_path u = [] \/ exists r, u_path u = "/"%char :: r) -> url_parse (show_url u) = Ok u.
Proof. exact url_reparse. Qed.
(** urls without a scheme do not survive *)
Theorem C56_schemeless_refuted : exists t u, url_parse t = Ok u /\ url_parse (show_url u) <> Ok u.
Proof. exists (lit "//host/x"), (Url [] "host" 443 "/x" [] []). split; [reflexivity|]. vm_compute. discriminate. Qed.
(** urls with a relative path behind the scheme do not survive either: the path is taken for a port *)
Theorem C56_opaque_refuted : exists t u, url_parse t = Ok u /\ u_scheme u <> [] /\ url_parse (show_url u) <> Ok u.
Proof. exists (lit "mailto:a"), (Url "mailto" [] 443 "a" [] []). split; [reflexivity|]. split; [discriminate|]. vm_compute. discriminate. Qed.
Example C56_witness : url_parse "HTTPS://pypi.org:8443/simple/pkm?x=1#f" = Ok (Url "https" "pypi.org" 8443 "/simple/pkm" "x=1" "f") /\
  show_url (Url "https" "pypi.org" 8443 "/simple/pkm" "x=1" "f") = lit "https://pypi.org:8443/simple/pkm?x=1#f".
Proof. split; reflexivity. Qed.

(** *** C57: multipart bodies *)
(** the bytes sent do not depend on how the payloads are cut into pieces *)
Theorem C57_body_is_the_parts_in_order_partial : forall boundary size fs, 0 < size ->
  concat (body_pieces boundary size fs) = flat_map (fun f => lit "--" ++ boundary ++ crlf ++ render f ++ f_payload f ++ crlf) fs.
Proof. exact body_concat. Qed.
(** the closing delimiter that ends a multipart body is never sent *)
Theorem C57_no_closing_delimiter_refuted : exists boundary fs, fs <> [] /\ forall size, 0 < size ->
  ~ exists front, concat (body_pieces boundary size fs) = front ++ lit "--" ++ boundary ++ lit "--" ++ crlf \/ 
                  concat (body_pieces boundary size fs) = front ++ lit "--" ++ boundary ++ lit "--".
Proof.
  exists (lit "XX"), [Field [] (lit "p") false]. split; [discriminate|]. intros size P (front & H). rewrite !body_concat in H by exact P. 
  destruct H as [H|H]; apply (f_equal (@rev ascii)) in H; rewrite rev_app_distr in H; vm_compute in H; discriminate.
Qed.
Example C57_witness : concat (body_pieces "B" 2 [Field [(lit "Content-Disposition", lit "form-data")] "hello" true]) =
  lit "--B" ++ crlf ++ lit "Content-Disposition: form-data" ++ crlf ++ crlf ++ lit "hello" ++ crlf.
Proof. reflexivity. Qed.

Print Assumptions C26_one_download_at_a_time.
Print Assumptions C26_nobody_waits_forever_partial.
Print Assumptions C26_waits_for_somebody_partial.
Print Assumptions C26_waiter_after_interrupt_refuted.
Print Assumptions C27_refreshing_requests_ask_the_server_partial.
Print Assumptions C27_update_ignored_after_a_hit_refuted.
Print Assumptions C27_stale_entry_is_final.
Print Assumptions C28_contacts_bounded.
Print Assumptions C28_always_ends.
Print Assumptions C28_headers_stay_home_partial.
Print Assumptions C28_credentials_leave_refuted.
Print Assumptions C29_exclusive_use_partial.
Print Assumptions C29_pooled_connections_open_and_distinct_partial.
Print Assumptions C29_limit.
Print Assumptions C29_closed_keeps_nothing.
Print Assumptions C29_racing_double_close_refuted.
Print Assumptions C56_print_parse.
Print Assumptions C56_reparse_partial.
Print Assumptions C56_schemeless_refuted.
Print Assumptions C56_opaque_refuted.
Print Assumptions C57_body_is_the_parts_in_order_partial.
Print Assumptions C57_no_closing_delimiter_refuted.
