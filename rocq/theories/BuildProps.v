(** C51 build cycles, C52 the cache of built distributions. *)
From Coq Require Import String Ascii List Bool NArith Arith Lia Relations.
From Verif Require Import Base BaseFacts NamesModel BuildModel BuildProofs.
Import ListNotations.
Open Scope string_scope.
Open Scope nat_scope.
Open Scope list_scope.
Open Scope bool_scope.

Lemma build_S : forall fuel w om p path c, build (S fuel) w om p path c =
  if pmem p path then (CycleError p, path, c)
  else match install w (build fuel w) (needs w p) (Some (path ++ [p])) c with
       | (Built, path', c) =>
           let path' := match path' with Some l => l | None => [] end in
           if om && negb (meta_hook w p) then (NoMetaHook, path', c) else (Built, path', c)
       | (o, path', c) => (o, match path' with Some l => l | None => [] end, c)
       end.
Proof. reflexivity. Qed.
(** * C51 *)
(** Over any finite set of packages that is closed under build requirements a build comes to an end: with the wheel or with the
    report of a cycle, whatever is in the cache. *)
Theorem C51_terminates : forall w U p c fuel,
  (forall a b, In a U -> In b (needs w a) -> In b U) -> In p U -> length U <= fuel ->
  let o := fst (fst (wheel_of fuel w p c)) in o = Built \/ exists q, o = CycleError q.
Proof. intros w U p c fuel Cl. apply wheel_ends. intros a Ia b Ib. exact (Cl a b Ia Ib). Qed.
Print Assumptions C51_terminates.

(** A package that needs, directly or not, a package that needs itself, is never built. *)
Theorem C51_cycle_rejected : forall w p q fuel,
  clos_trans _ (fun a b => In a (needs w b)) q q -> clos_refl_trans _ (fun a b => In a (needs w b)) q p ->
  fst (fst (wheel_of fuel w p [])) <> Built.
Proof.
  intros w p q fuel C R H. destruct (wheel_of fuel w p []) as [[o path] c'] eqn:E. cbn [fst] in H. subst o.
  apply wheel_sound in E; [|intros x e []]. exact (acc_no_cycle _ _ q (acc_down _ _ q p E R) C).
Qed.
Print Assumptions C51_cycle_rejected.

(** When the repositories tell the dependencies of all packages, the build fails with a cycle error exactly when there is a
    cycle, and the error names a package on it. A package that two others need is no problem. *)
Theorem C51_exact_partial : forall w U p fuel,
  (forall q, published w q = true) -> (forall a b, In a U -> In b (needs w a) -> In b U) -> In p U -> length U <= fuel ->
  ((exists q, fst (fst (wheel_of fuel w p [])) = CycleError q) <->
   (exists q, clos_trans _ (fun a b => In a (needs w b)) q q /\ clos_refl_trans _ (fun a b => In a (needs w b)) q p)) /\
  (forall q, fst (fst (wheel_of fuel w p [])) = CycleError q ->
     clos_trans _ (fun a b => In a (needs w b)) q q /\ clos_refl_trans _ (fun a b => In a (needs w b)) q p).
Proof.
  intros w U p fuel P Cl Ip L.
  assert (A : forall q, fst (fst (wheel_of fuel w p [])) = CycleError q ->
     clos_trans _ (fun a b => In a (needs w b)) q q /\ clos_refl_trans _ (fun a b => In a (needs w b)) q p).
  { intros q H. destruct (wheel_of fuel w p []) as [[o path] c'] eqn:E. cbn [fst] in H. subst o.
    exact (wheel_cycle_real w fuel p path c' q P E). }
  split; [|exact A]. split.
  - intros (q & H). exists q. now apply A.
  - intros (q & C & R). destruct (C51_terminates w U p [] fuel Cl Ip L) as [H|H]; [|exact H].
    exfalso. exact (C51_cycle_rejected w p q fuel C R H).
Qed.
Print Assumptions C51_exact_partial.

(** Without that, one source distribution that is needed and has no requirements at all is enough for a cycle error: its
    metadata are built first, and it stays in the dictionary of the current builds. *)
Theorem C51_unpublished : forall w p r fuel, needs w p = [r] -> needs w r = [] -> published w r = false -> r <> p ->
  fst (fst (wheel_of (2 + fuel) w p [])) = CycleError r.
Proof.
  intros w p r fuel Np Nr Pr D.
  assert (D1 : (r =? p) = false) by now apply Nat.eqb_neq.
  assert (Br : forall om c, build (S fuel) w om r ([] ++ [p]) c =
            (if om && negb (meta_hook w r) then NoMetaHook else Built, [p; r], c)).
  { intros om c. rewrite build_S. unfold pmem. cbn [app existsb]. rewrite D1. cbn [orb]. rewrite Nr. cbn [install request_all].
    destruct (om && negb (meta_hook w r)); reflexivity. }
  assert (Bc : forall om c, build (S fuel) w om r [p; r] c = (CycleError r, [p; r], c)).
  { intros om c. rewrite build_S. unfold pmem. cbn [existsb]. rewrite D1, Nat.eqb_refl. reflexivity. }
  assert (In1 : exists c, install w (build (S fuel) w) [r] (Some ([] ++ [p])) [] = (CycleError r, Some [p; r], c)).
  { unfold install. cbn [request_all]. rewrite Pr. cbn [andb].
    assert (G1 : exists c, get_or_build (build (S fuel) w) true r (Some ([] ++ [p])) [] =
                  (if meta_hook w r then Built else CycleError r, Some [p; r], c) /\ (meta_hook w r = true -> c = [(r, MetaOnly)])).
    { unfold get_or_build. cbn [stored serves filter]. cbv zeta. rewrite Br. cbn [andb]. destruct (meta_hook w r); cbn [negb].
      - exists [(r, MetaOnly)]. now split.
      - rewrite Bc. eexists. split; [reflexivity|discriminate]. }
    destruct G1 as (c & -> & Ec). destruct (meta_hook w r).
    - rewrite (Ec eq_refl). unfold get_or_build. cbn [stored serves filter fst]. rewrite Nat.eqb_refl. cbn [serves negb]. cbv zeta.
      rewrite Bc. eexists. reflexivity.
    - exists c. reflexivity. }
  destruct In1 as (c & Ei).
  unfold wheel_of, get_or_build. cbn [stored serves filter]. cbv zeta iota beta.
  change (2 + fuel) with (S (S fuel)). rewrite build_S. unfold pmem. cbn [existsb]. rewrite Np, Ei. reflexivity.
Qed.
Print Assumptions C51_unpublished.
Theorem C51_exact_refuted : exists w p q, (forall x, ~ clos_trans _ (fun a b => In a (needs w b)) x x) /\
  forall fuel, 2 <= fuel -> fst (fst (wheel_of fuel w p [])) = CycleError q.
Proof.
  exists (World (fun p => match p with 0 => [1] | _ => [] end) (fun _ => false) (fun _ => true)), 0, 1. split.
  - intros x. apply acc_no_cycle.
    assert (A1 : forall y, Acc (fun a b => In a (match b with 0 => [1] | _ => [] end)) (S y)) by (intros y; constructor; intros z []).
    destruct x; [|apply A1]. constructor. intros y [<-|[]]. apply A1.
  - intros fuel L. destruct fuel as [|[|fuel]]; [lia|lia|]. apply (C51_unpublished _ 0 1 fuel); [reflexivity|reflexivity|reflexivity|discriminate].
Qed.
Print Assumptions C51_exact_refuted.

(** 0 needs 1 and 2, which both need 3; 4, 5 and 6 need each other in a circle, and 7 needs 4 *)
Definition src_world (pub : bool) : world :=
  World (fun p => match p with 0 => [1; 2] | 1 => [3] | 2 => [3] | 4 => [5] | 5 => [6] | 6 => [4] | 7 => [3; 4] | _ => [] end)
        (fun _ => pub) (fun p => negb (p =? 3)).
Example C51_example :
  (forall a b, In a [0; 1; 2; 3; 4; 5; 6; 7] -> In b (needs (src_world true) a) -> In b [0; 1; 2; 3; 4; 5; 6; 7]) /\
  (forall q, published (src_world true) q = true) /\
  wheel_of 8 (src_world true) 0 [] = (Built, None, [(0, WithWheel); (2, WithWheel); (1, WithWheel); (3, WithWheel)]) /\
  fst (fst (wheel_of 8 (src_world true) 7 [])) = CycleError 4 /\
  clos_trans _ (fun a b => In a (needs (src_world true) b)) 4 4 /\ clos_refl_trans _ (fun a b => In a (needs (src_world true) b)) 4 7 /\
  fst (fst (wheel_of 8 (src_world false) 0 [])) = CycleError 3 /\
  (needs (src_world false) 2 = [3] /\ needs (src_world false) 3 = [] /\ published (src_world false) 3 = false).
Proof.
  split; [|split; [reflexivity|split; [reflexivity|split; [reflexivity|split; [|split; [|split; [reflexivity|repeat split]]]]]]].
  - intros a b Ia. repeat (destruct Ia as [<-|Ia]; [cbn; intuition|]). destruct Ia.
  - apply t_trans with 6; [|apply t_trans with 5]; apply t_step; cbn; tauto.
  - apply rt_step. cbn. tauto.
Qed.

(** * C52 *)
(** The reply to a request comes from a build - an earlier one or the one made for this request - for a package, a version
    and markers that have the same directory names and for an archive with the same digest. It is the metadata or the wheel
    that that build gave, but its end may be missing, since the files are copied into the cache in place. This holds whatever
    requests were made before and wherever they were cut off. *)
Theorem C52_key : forall ops r l rep,
  (forall r' k n c t, In (r', k) ops -> r_out r' = WheelFile n c t -> is_wheel_name n = true) ->
  get (history ops) r = Ok (l, Ok rep) ->
  exists r', (r' = r \/ exists k, In (r', k) ops) /\
    r_markers r' = r_markers r /\ r_digest r' = r_digest r /\
    normalize_src_package_name (r_name r') = normalize_src_package_name (r_name r) /\
    normalize_src_package_name (r_version r') = normalize_src_package_name (r_version r) /\
    match rep with
    | Metadata text => exists rest, r_out r' = MetaDir (Some (text ++ rest)) \/ exists n c, r_out r' = WheelFile n c (text ++ rest)
    | WheelPath n c => exists rest t, r_out r' = WheelFile n (c ++ rest) t
    end.
Proof.
  intros ops r l rep Hn G.
  destruct (get_reply false ops r l rep ltac:(discriminate)) as (r' & O & Eb & Ed & R); [|exact G|].
  - intros r0 k n c I (t & E). exact (Hn r0 k n c t I E).
  - exists r'. split; [exact O|]. unfold req_base in Eb.
    assert (Nr : exists n v, normalize_src_package_name (r_name r) = Ok n /\ normalize_src_package_name (r_version r) = Ok v).
    { unfold get, req_base in G. destruct (normalize_src_package_name (r_name r)) as [n|]; [|discriminate].
      cbn [bind] in G. destruct (normalize_src_package_name (r_version r)) as [v|]; [|discriminate]. now exists n, v. }
    destruct Nr as (n & v & En & Ev). rewrite En, Ev in Eb |- *. cbn [bind] in Eb.
    destruct (normalize_src_package_name (r_name r')) as [n'|]; [|discriminate]. cbn [bind] in Eb.
    destruct (normalize_src_package_name (r_version r')) as [v'|]; [|discriminate]. cbn [bind] in Eb.
    injection Eb as -> -> Em. split; [exact Em|split; [exact Ed|split; [reflexivity|split; [reflexivity|]]]].
    destruct rep as [text|n' c]; cbn [reply_of] in R.
    + destruct R as (t & Gm & (rest & ->) & _). exists rest. destruct Gm as [E|(n' & c & E)]; [now left|right; now exists n', c].
    + destruct R as (t & (tt & E) & (rest & ->) & _). now exists rest, tt.
Qed.
Print Assumptions C52_key.

(** Were the files put into place whole, the reply would be what the build gave. *)
Theorem C52_whole_partial : forall ops r l rep,
  (forall r' k n c t, In (r', k) ops -> r_out r' = WheelFile n c t -> is_wheel_name n = true) ->
  (forall r' k, In (r', k) ops -> match r_out r' with
     | BuildFails | MetaDir None => True | MetaDir (Some t) => length t <= r_torn r'
     | WheelFile _ c t => length c <= r_torn r' /\ length t <= r_torn r' end) ->
  get (history ops) r = Ok (l, Ok rep) ->
  exists r', (r' = r \/ exists k, In (r', k) ops) /\ req_base r' = req_base r /\ r_digest r' = r_digest r /\
    match rep with
    | Metadata text => r_out r' = MetaDir (Some text) \/ exists n c, r_out r' = WheelFile n c text
    | WheelPath n c => exists t, r_out r' = WheelFile n c t
    end.
Proof.
  intros ops r l rep Hn Hw G.
  destruct (get_reply true ops r l rep) as (r' & O & Eb & Ed & R); [| |exact G|].
  - intros _ r0 k I. specialize (Hw r0 k I). unfold whole_copies, gave_meta, gave_wheel. split.
    + intros t [E|(n & c & E)]; rewrite E in Hw; [exact Hw|apply Hw].
    + intros n t (tt & E). rewrite E in Hw. apply Hw.
  - intros r0 k n c I (t & E). exact (Hn r0 k n c t I E).
  - exists r'. split; [exact O|split; [exact Eb|split; [exact Ed|]]].
    destruct rep as [text|n c]; cbn [reply_of] in R; destruct R as (t & Gm & _ & E); rewrite (E eq_refl); exact Gm.
Qed.
Print Assumptions C52_whole_partial.

(** A request that ended is answered from the cache the next time, without a change to it. *)
Theorem C52_hit : forall fs r l rep, get fs r = Ok (l, Ok rep) ->
  (forall n c t, r_out r = WheelFile n c t -> is_wheel_name n = true) ->
  match r_out r with WheelFile _ _ _ => True | _ => r_meta r = true end ->
  exists rep', get (after fs (r, None)) r = Ok ([], Ok rep') /\
    (r_meta r = false -> rep' = rep) /\ (forall t, r_out r = MetaDir t -> rep' = rep).
Proof.
  intros fs r l rep G Hn Hk.
  pose proof (get_again fs r l rep G) as H. rewrite H.
  - eexists. split; [reflexivity|]. split.
    + intros ->. reflexivity.
    + intros t E. rewrite E. destruct (r_meta r), rep; reflexivity.
  - destruct (r_out r) as [|t|n c t]; [now left|now left|right; discriminate].
  - intros n c (t & E). exact (Hn n c t E).
Qed.
Print Assumptions C52_hit.

(** A backend without the hook for metadata: the first request for metadata is answered with a wheel, the next one with
    the metadata. *)
Theorem C52_metadata_kind_refuted : forall fs r n c t b, req_base r = Ok b -> r_meta r = true ->
  (forall f, In f fs -> ~ (f_base f = b /\ f_digest f = r_digest r)) -> r_out r = WheelFile n c t -> is_wheel_name n = true ->
  (exists l, get fs r = Ok (l, Ok (WheelPath n c))) /\ get (after fs (r, None)) r = Ok ([], Ok (Metadata t)).
Proof.
  intros fs r n c t b Eb Em Hf Eo Hn.
  assert (Ec : cached fs b (r_digest r) true = None).
  { unfold cached, meta_text. destruct (find (same_file b (r_digest r) METADATA) fs) as [f|] eqn:E; [|reflexivity].
    apply find_some in E. destruct E as [I E]. apply same_file_iff in E. exfalso. exact (Hf f I (conj (proj1 E) (proj1 (proj2 E)))). }
  assert (G : exists l, get fs r = Ok (l, Ok (WheelPath n c))).
  { unfold get. rewrite Eb. cbn [bind]. rewrite Em, Ec, Eo. eexists. reflexivity. }
  split; [exact G|]. destruct G as (l & G). rewrite (get_again fs r l _ G).
  - now rewrite Em, Eo.
  - now left.
  - intros n' c' (t' & E). rewrite Eo in E. injection E as <- <- <-. exact Hn.
Qed.
Print Assumptions C52_metadata_kind_refuted.

Definition a_req (version : str) (meta : bool) (out : build_output) : req := Req "My.Pkg" version "0f3a" "d1" meta out 3.
Definition whl : build_output := WheelFile "my_pkg-1.0-py3-none-any.whl" "PK-content" "Name: My.Pkg".
(** A crash while a file is copied: the next request for the metadata, or for the wheel, gets a part of it. *)
Theorem C52_crash_refuted : exists ops r text ops' r' n c, (exists k, ops = [(r, Some k)]) /\ (exists k, ops' = [(r', Some k)]) /\
  r_out r = MetaDir (Some text) /\ get (history ops) r = Ok ([], Ok (Metadata (firstn 3 text))) /\ firstn 3 text <> text /\
  (exists t, r_out r' = WheelFile n c t) /\ get (history ops') r' = Ok ([], Ok (WheelPath n (firstn 3 c))) /\ firstn 3 c <> c.
Proof.
  exists [(a_req "1.0" true (MetaDir (Some (lit "Name: My.Pkg"))), Some 1)], (a_req "1.0" true (MetaDir (Some (lit "Name: My.Pkg")))), "Name: My.Pkg",
    [(a_req "1.0" false whl, Some 3)], (a_req "1.0" false whl), "my_pkg-1.0-py3-none-any.whl", "PK-content".
  split; [now exists 1|]. split; [now exists 3|]. split; [reflexivity|]. split; [vm_compute; reflexivity|]. split; [vm_compute; discriminate|].
  split; [now exists "Name: My.Pkg"|]. split; [vm_compute; reflexivity|vm_compute; discriminate].
Qed.
Print Assumptions C52_crash_refuted.

(** Different versions can have the same directory: 1!0 and 1.0 (the archive must be the same for a wrong reply). *)
Theorem C52_version_refuted : exists ops r rep, get (history ops) r = Ok ([], Ok rep) /\
  forall r' k, In (r', k) ops -> r_version r' = "1!0" /\ r_version r = "1.0" /\ normalize_src_package_name (r_version r') = normalize_src_package_name (r_version r).
Proof.
  exists [(a_req "1!0" false whl, None)], (a_req "1.0" false whl), (WheelPath "my_pkg-1.0-py3-none-any.whl" "PK-content").
  split; [vm_compute; reflexivity|]. intros r' k [E|[]]. injection E as <- <-. vm_compute. tauto.
Qed.
Print Assumptions C52_version_refuted.

Example C52_example :
  (* a crash between the files: metadata served, the wheel built again; afterwards both come from the cache *)
  let ops := [(a_req "1.0" false whl, Some 2)] in
  get (history ops) (a_req "1.0" true BuildFails) = Ok ([], Ok (Metadata "Name: My.Pkg")) /\
  match get (history ops) (a_req "1.0" false whl) with Ok (_ :: _, Ok (WheelPath _ _)) => True | _ => False end /\
  get (history (ops ++ [(a_req "1.0" false whl, None)])) (Req "my-pkg" "1.0" "0f3a" "d1" false BuildFails 0) = Ok ([], Err OtherErr) /\
  get (history (ops ++ [(a_req "1.0" false whl, None)])) (Req "My-Pkg" "1.0" "0f3a" "d1" false BuildFails 0) =
    Ok ([], Ok (WheelPath "my_pkg-1.0-py3-none-any.whl" "PK-content")) /\
  get (history (ops ++ [(a_req "1.0" false whl, None)])) (Req "My-Pkg" "1.0" "0f3a" "d2" false BuildFails 0) =
    Ok ([Unlink ("My_Pkg" : str, "1_0" : str, "0f3a" : str) "d1" "my_pkg-1.0-py3-none-any.whl"; Unlink ("My_Pkg" : str, "1_0" : str, "0f3a" : str) "d1" "METADATA"], Err OtherErr).
Proof. cbv zeta. split; [vm_compute; reflexivity|split; [vm_compute; exact Logic.I|split; [vm_compute; reflexivity|split; vm_compute; reflexivity]]]. Qed.
