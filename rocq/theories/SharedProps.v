(** C53: cleaning the shared store.  C63: reusing an artifact of the shared store. *)
From Coq Require Import String Ascii List Bool NArith Arith Lia.
From Verif Require Import Base BaseFacts FsModel FsFacts NamesModel SharedModel SharedProofs.
Import ListNotations.
Open Scope list_scope.

(** What should go, said without the code: everything in an artifact directory (package/version/artifact) that is not
    referenced, a version directory all of whose entries go, a package directory all of whose entries go. *)
Inductive gone (f : fs) (ws : path) (refd : str -> str -> str -> Prop) : path -> Prop :=
| gone_artifact : forall r p v a, lookup f (a :: v :: p :: ws) = Some Dir -> ~ refd p v a -> gone f ws refd (r ++ a :: v :: p :: ws)
| gone_version : forall p v, lookup f (v :: p :: ws) = Some Dir ->
    (forall a, lookup f (a :: v :: p :: ws) <> None -> gone f ws refd (a :: v :: p :: ws)) -> gone f ws refd (v :: p :: ws)
| gone_package : forall p, lookup f (p :: ws) = Some Dir ->
    (forall v, lookup f (v :: p :: ws) <> None -> gone f ws refd (v :: p :: ws)) -> gone f ws refd (p :: ws).

Lemma gone_inv3 : forall f ws refd p v a, gone f ws refd (a :: v :: p :: ws) -> lookup f (a :: v :: p :: ws) = Some Dir /\ ~ refd p v a.
Proof.
  intros f ws refd p v a H. remember (a :: v :: p :: ws) as q eqn:E. destruct H as [r p' v' a' D R|p' v' D H|p' D H].
  - assert (X := f_equal (@length str) E). rewrite app_length in X. cbn [length] in X. destruct r; [|cbn [length] in X; lia].
    injection E as -> -> ->. auto.
  - exfalso. assert (X := f_equal (@length str) E). cbn [length] in X. lia.
  - exfalso. assert (X := f_equal (@length str) E). cbn [length] in X. lia.
Qed.
Lemma gone_inv2 : forall f ws refd p v, gone f ws refd (v :: p :: ws) ->
  lookup f (v :: p :: ws) = Some Dir /\ forall a, lookup f (a :: v :: p :: ws) <> None -> gone f ws refd (a :: v :: p :: ws).
Proof.
  intros f ws refd p v H. remember (v :: p :: ws) as q eqn:E. destruct H as [r p' v' a' D R|p' v' D H|p' D H].
  - exfalso. assert (X := f_equal (@length str) E). rewrite app_length in X. cbn [length] in X. lia.
  - injection E as -> ->. auto.
  - exfalso. assert (X := f_equal (@length str) E). cbn [length] in X. lia.
Qed.
Lemma gone_iff : forall f ws used text refd, wf_fs f -> (forall p v a, In (artifact_text text p v a) used <-> refd p v a) ->
  forall q, gone f ws refd q <-> exists p, g_package used text ws p (lookup f) q.
Proof.
  intros f ws used text refd W R q.
  assert (EV : forall p v, emptied_version used text ws (lookup f) p v <->
               lookup f (v :: p :: ws) = Some Dir /\ forall a, lookup f (a :: v :: p :: ws) <> None -> gone f ws refd (a :: v :: p :: ws)).
  { intros p v. unfold emptied_version, unused. split; intros [D H]; (split; [exact D|]); intros a Ha.
    - destruct (H a Ha) as [X Y]. apply (gone_artifact f ws refd [] p v a X). rewrite <- R. exact Y.
    - specialize (H a Ha). apply gone_inv3 in H. rewrite <- R in H. exact H. }
  split.
  - intro H. destruct H as [r p v a D U|p v D H|p D H].
    + exists p. assert (Dv : lookup f (v :: p :: ws) = Some Dir) by (apply (proj2 W a); rewrite D; discriminate).
      assert (Dp : lookup f (p :: ws) = Some Dir) by (apply (proj2 W v); rewrite Dv; discriminate).
      split; [exact Dp|]. left. exists v. split; [exact Dv|]. left. exists a. split; [apply under_app|]. split; [exact D|]. unfold unused. rewrite R. exact U.
    + exists p. assert (Dp : lookup f (p :: ws) = Some Dir) by (apply (proj2 W v); rewrite D; discriminate).
      split; [exact Dp|]. left. exists v. split; [exact D|]. right. split; [reflexivity|]. apply EV. auto.
    + exists p. split; [exact D|]. right. split; [reflexivity|]. split; [exact D|]. intros v Hv. apply EV. apply gone_inv2, H, Hv.
  - intros (p & D & [(v & Dv & [(a & U & Da & Y)|[-> X]])|[-> [_ X]]]).
    + apply under_iff in U. destruct U as [r ->]. apply gone_artifact; [exact Da|]. rewrite <- R. exact Y.
    + apply EV in X. apply gone_version; apply X.
    + apply gone_package; [exact D|]. intros v Hv. specialize (X v Hv). apply EV in X. apply gone_version; apply X.
Qed.

(** C53 as far as it holds: for the environments that are looked at, when no environment has two dist-infos of one
    package and the markers spell the workspace the way the cleaning does.
    Missing: references of the package containers and of spelled-differently workspaces, see the refutations below. *)
Theorem C53_clean_partial : forall f ws text envs f',
  wf_fs f -> (forall env, In env envs -> one_each f env) -> remove_unused_packages f ws text envs = Ok f' ->
  forall q,
    (gone f ws (fun p v a => references f envs (artifact_text text p v a)) q -> lookup f' q = None) /\
    (~ gone f ws (fun p v a => references f envs (artifact_text text p v a)) q -> lookup f' q = lookup f q).
Proof.
  intros f ws text envs f' W O H q. unfold remove_unused_packages in H.
  destruct (used_packages f envs) as [used|] eqn:U; [|discriminate]. cbn [bind] in H. unfold iterdir in H.
  destruct (is_dir f ws); [|discriminate]. injection H as <-.
  rewrite (gone_iff f ws used text _ W (fun p v a => used_spec f envs used W O U (artifact_text text p v a)) q).
  destruct (clean_spec used text ws f q) as [[X E]|[X E]]; split; intro Y; try exact E; contradiction.
Qed.
(** everything in a referenced artifact stays as it is *)
Theorem C53_referenced_stays : forall f ws text envs f' p v a,
  wf_fs f -> (forall env, In env envs -> one_each f env) -> remove_unused_packages f ws text envs = Ok f' ->
  references f envs (artifact_text text p v a) -> forall r, lookup f' (r ++ a :: v :: p :: ws) = lookup f (r ++ a :: v :: p :: ws).
Proof.
  intros f ws text envs f' p v a W O H R r. apply (proj2 (C53_clean_partial f ws text envs f' W O H _)).
  intro G. remember (r ++ a :: v :: p :: ws) as q eqn:E. destruct G as [r' p' v' a' D U|p' v' D G|p' D G].
  - replace (a :: v :: p :: ws) with ([a; v; p] ++ ws) in E by reflexivity. replace (a' :: v' :: p' :: ws) with ([a'; v'; p'] ++ ws) in E by reflexivity.
    rewrite !app_assoc in E. apply app_inv_tail in E. assert (X := f_equal (fun l => firstn 3 (rev l)) E). cbn beta in X.
    rewrite !rev_app_distr in X. cbn in X. injection X as -> -> ->. contradiction.
  - assert (X := f_equal (@length str) E). rewrite app_length in X. cbn [length] in X. lia.
  - assert (X := f_equal (@length str) E). rewrite app_length in X. cbn [length] in X. lia.
Qed.
(** every artifact that is not referenced goes with all that is in it *)
Theorem C53_unreferenced_goes : forall f ws text envs f' p v a,
  wf_fs f -> (forall env, In env envs -> one_each f env) -> remove_unused_packages f ws text envs = Ok f' ->
  lookup f (a :: v :: p :: ws) = Some Dir -> ~ references f envs (artifact_text text p v a) -> forall r, lookup f' (r ++ a :: v :: p :: ws) = None.
Proof.
  intros f ws text envs f' p v a W O H D R r. apply (proj1 (C53_clean_partial f ws text envs f' W O H _)).
  apply gone_artifact; assumption.
Qed.
(** nothing outside of the workspace is touched, whatever the markers say *)
Theorem C53_outside : forall f ws text envs f' q, remove_unused_packages f ws text envs = Ok f' ->
  (forall r c, q <> r ++ c :: ws) -> lookup f' q = lookup f q.
Proof.
  intros f ws text envs f' q H N. unfold remove_unused_packages in H.
  destruct (used_packages f envs) as [used|] eqn:U; [|discriminate]. cbn [bind] in H. unfold iterdir in H.
  destruct (is_dir f ws); [|discriminate]. injection H as <-.
  destruct (clean_spec used text ws f q) as [[[p X] E]|[X E]]; [|exact E]. apply package_under, under_iff in X.
  destruct X as [r X]. exfalso. exact (N r p X).
Qed.
(** the cleaning only removes *)
Theorem C53_only_removes : forall f ws text envs f' q, remove_unused_packages f ws text envs = Ok f' ->
  lookup f' q = None \/ lookup f' q = lookup f q.
Proof.
  intros f ws text envs f' q H. unfold remove_unused_packages in H.
  destruct (used_packages f envs) as [used|] eqn:U; [|discriminate]. cbn [bind] in H. unfold iterdir in H.
  destruct (is_dir f ws); [|discriminate]. injection H as <-.
  destruct (clean_spec used text ws f q) as [[_ E]|[_ E]]; auto.
Qed.

(** a concrete zoo: two environments, three artifacts *)
Definition at_ (s : str) : path := rev (split_on "/" s).
Definition store : fs :=
  [([], Dir); (at_ "zoo", Dir); (at_ "zoo/.zoo", Dir); (at_ "zoo/.zoo/shared", Dir);
   (at_ "zoo/.zoo/shared/x", Dir); (at_ "zoo/.zoo/shared/x/1.0", Dir);
   (at_ "zoo/.zoo/shared/x/1.0/py3", Dir); (at_ "zoo/.zoo/shared/x/1.0/py3/x.py", File (lit "x"));
   (at_ "zoo/.zoo/shared/x/2.0", Dir); (at_ "zoo/.zoo/shared/x/2.0/py3", Dir); (at_ "zoo/.zoo/shared/x/2.0/py3/x.py", File (lit "x2"));
   (at_ "zoo/.zoo/shared/y", Dir); (at_ "zoo/.zoo/shared/y/1.0", Dir); (at_ "zoo/.zoo/shared/y/1.0/py3", Dir);
   (at_ "zoo/e", Dir); (at_ "zoo/e/pyvenv.cfg", File []); (at_ "zoo/e/bin", Dir); (at_ "zoo/e/bin/python", File []);
   (at_ "zoo/e/lib", Dir); (at_ "zoo/e/lib/x-1.0.dist-info", Dir);
   (at_ "zoo/e/lib/x-1.0.dist-info/SHARED", File (lit "/zoo/.zoo/shared/x/1.0/py3"))].
Definition lib_of (e : path) : path * path := (lit "lib" :: e, lit "lib" :: e).
Example C53_witness : exists f',
  clean_unused_shared store (at_ "zoo") "/zoo" lib_of = Ok f' /\
  lookup f' (at_ "zoo/.zoo/shared/x/1.0/py3/x.py") = Some (File (lit "x")) /\
  lookup f' (at_ "zoo/.zoo/shared/x/2.0") = None /\ lookup f' (at_ "zoo/.zoo/shared/y") = None /\
  zoo_list store (at_ "zoo") lib_of = Ok [lib_of (at_ "zoo/e")].
Proof. eexists. split; [vm_compute; reflexivity|]. vm_compute. repeat split; reflexivity. Qed.
Example C53_witness_hypotheses : wf_fs store /\ one_each store (lib_of (at_ "zoo/e")) /\
  references store [lib_of (at_ "zoo/e")] (artifact_text "/zoo/.zoo/shared" "x" "1.0" "py3") /\
  ~ references store [lib_of (at_ "zoo/e")] (artifact_text "/zoo/.zoo/shared" "x" "2.0" "py3").
Proof.
  assert (K : forall n, lookup store (n :: at_ "zoo/e/lib") <> None -> n = lit "x-1.0.dist-info").
  { intros n H. apply children_in in H. vm_compute in H. destruct H as [<-|[]]. reflexivity. }
  split; [|split; [|split]].
  - split; [reflexivity|]. intros c p H. destruct (lookup store (c :: p)) as [n|] eqn:E; [|congruence]. apply lookup_in in E.
    change store with (map (fun e => e) store) in E. apply in_map_iff in E. destruct E as ([q m] & E1 & E2). cbn in E1. injection E1 as -> _.
    clear H n. vm_compute in E2.
    repeat (destruct E2 as [E2|E2]; [try discriminate E2; injection E2 as <- <- _; vm_compute; reflexivity|]). destruct E2.
  - intros s s2 n n2 Hs Hs2 L L2 _ _ _. assert (s = at_ "zoo/e/lib") as -> by (destruct Hs; assumption).
    assert (s2 = at_ "zoo/e/lib") as -> by (destruct Hs2; assumption). rewrite (K n L), (K n2 L2). reflexivity.
  - exists (lib_of (at_ "zoo/e")), (at_ "zoo/e/lib"), (lit "x-1.0.dist-info"). split; [left; reflexivity|]. split; [left; reflexivity|].
    split; [exists (lit "x-1.0"); split; [discriminate|reflexivity]|reflexivity].
  - intros (env & s & n & [<-|[]] & Hs & _ & L). assert (s = at_ "zoo/e/lib") as -> by (destruct Hs; assumption).
    assert (X : lookup store (n :: at_ "zoo/e/lib") <> None).
    { intro X. assert (W : lookup store (lit "SHARED" :: n :: at_ "zoo/e/lib") <> None) by congruence.
      apply lookup_in in L. vm_compute in L.
      repeat (destruct L as [L|L]; [try discriminate L; injection L as <- L2; vm_compute in X; discriminate X|]). destruct L. }
    rewrite (K n X) in L. vm_compute in L. discriminate.
Qed.

(** REFUTED: an application container of an environment installs into a site of its own (package_containers.py:97-103); its
    references are not looked at, and what it uses is removed. *)
Definition container_store : fs :=
  [([], Dir); (at_ "zoo", Dir); (at_ "zoo/.zoo", Dir); (at_ "zoo/.zoo/shared", Dir);
   (at_ "zoo/.zoo/shared/x", Dir); (at_ "zoo/.zoo/shared/x/1.0", Dir);
   (at_ "zoo/.zoo/shared/x/1.0/py3", Dir); (at_ "zoo/.zoo/shared/x/1.0/py3/x.py", File (lit "x"));
   (at_ "zoo/e", Dir); (at_ "zoo/e/pyvenv.cfg", File []); (at_ "zoo/e/bin", Dir); (at_ "zoo/e/bin/python", File []);
   (at_ "zoo/e/lib", Dir); (at_ "zoo/e/lib/app", Dir); (at_ "zoo/e/lib/app/__container__", Dir);
   (at_ "zoo/e/lib/app/__container__/site", Dir); (at_ "zoo/e/lib/app/__container__/site/x-1.0.dist-info", Dir);
   (at_ "zoo/e/lib/app/__container__/site/x-1.0.dist-info/SHARED", File (lit "/zoo/.zoo/shared/x/1.0/py3"))].
Theorem C53_container_refuted : exists f', clean_unused_shared container_store (at_ "zoo") "/zoo" lib_of = Ok f' /\
  lookup container_store (at_ "zoo/e/lib/app/__container__/site/x-1.0.dist-info/SHARED") = Some (File (artifact_text "/zoo/.zoo/shared" "x" "1.0" "py3")) /\
  lookup f' (at_ "zoo/e/lib/app/__container__/site/x-1.0.dist-info/SHARED") = Some (File (artifact_text "/zoo/.zoo/shared" "x" "1.0" "py3")) /\
  lookup container_store (at_ "zoo/.zoo/shared/x/1.0/py3") = Some Dir /\ lookup f' (at_ "zoo/.zoo/shared/x/1.0/py3") = None.
Proof. eexists. split; [vm_compute; reflexivity|]. vm_compute. repeat split; reflexivity. Qed.
(** REFUTED: [absolute] keeps the spelling; a zoo that is opened as [/zoo] does not recognise what was linked when it was
    opened as [/work/../zoo]. *)
Definition spelled_store : fs :=
  map (fun e => match snd e with
                | File (c :: t) => (fst e, File (lit "/work/.." ++ c :: t))
                | _ => e
                end) store.
Theorem C53_spelling_refuted : exists f', clean_unused_shared spelled_store (at_ "zoo") "/zoo" lib_of = Ok f' /\
  lookup spelled_store (at_ "zoo/e/lib/x-1.0.dist-info/SHARED") = Some (File (artifact_text "/work/../zoo/.zoo/shared" "x" "1.0" "py3")) /\
  lookup f' (at_ "zoo/.zoo/shared/x/1.0/py3") = None /\
  (exists g, clean_unused_shared spelled_store (at_ "zoo") "/work/../zoo" lib_of = Ok g /\ lookup g (at_ "zoo/.zoo/shared/x/1.0/py3") = Some Dir).
Proof.
  eexists. split; [vm_compute; reflexivity|]. split; [vm_compute; reflexivity|]. split; [vm_compute; reflexivity|].
  eexists. split; [vm_compute; reflexivity|]. vm_compute. reflexivity.
Qed.
(** REFUTED: of two dist-infos with one name key in a site, only the one that is listed last counts *)
Definition shadowed_store : fs :=
  store ++ [(at_ "zoo/e/lib/X-2.0.dist-info", Dir); (at_ "zoo/e/lib/X-2.0.dist-info/SHARED", File (lit "/zoo/.zoo/shared/x/2.0/py3"))].
Theorem C53_shadowed_refuted : exists f', clean_unused_shared shadowed_store (at_ "zoo") "/zoo" lib_of = Ok f' /\
  references shadowed_store [lib_of (at_ "zoo/e")] (artifact_text "/zoo/.zoo/shared" "x" "1.0" "py3") /\
  lookup f' (at_ "zoo/.zoo/shared/x/1.0/py3") = None /\ lookup f' (at_ "zoo/.zoo/shared/x/2.0/py3") = Some Dir.
Proof.
  eexists. split; [vm_compute; reflexivity|]. split; [|vm_compute; split; reflexivity].
  exists (lib_of (at_ "zoo/e")), (at_ "zoo/e/lib"), (lit "x-1.0.dist-info"). split; [left; reflexivity|]. split; [left; reflexivity|].
  split; [exists (lit "x-1.0"); split; [discriminate|reflexivity]|reflexivity].
Qed.

(** C63: no artifact of the store is ever reused: with an artifact in the store, installing that version fails. *)
Theorem C63_never_reused : forall f p a, install_to f p <> Ok (Reuse a).
Proof.
  intros f p a. unfold install_to, shared_artifacts. destruct (exists_at f p); [|cbn; discriminate].
  unfold iterdir. destruct (is_dir f p); [|discriminate]. cbn [bind]. destruct (children f p); cbn; discriminate.
Qed.
Theorem C63_second_install_fails : forall f p a, lookup f p = Some Dir -> lookup f (a :: p) <> None -> install_to f p = Err AttributeError.
Proof.
  intros f p a D H. unfold install_to, shared_artifacts. assert (X : exists_at f p = true) by (apply exists_at_true; congruence). rewrite X.
  unfold iterdir. apply is_dir_true in D. rewrite D. apply children_in in H. destruct (children f p); [destruct H|reflexivity].
Qed.
Theorem C63_reuse_refuted : exists f p a, lookup f (a :: p) = Some Dir /\ install_to f p = Err AttributeError.
Proof. exists store, (at_ "zoo/.zoo/shared/x/1.0"), (lit "py3"). split; vm_compute; reflexivity. Qed.
Theorem C63_first_install : forall f p, lookup f p = None -> install_to f p = Ok Install.
Proof. intros f p H. unfold install_to, shared_artifacts. apply exists_at_false in H. rewrite H. reflexivity. Qed.

Print Assumptions C53_clean_partial.
Print Assumptions C53_referenced_stays.
Print Assumptions C53_unreferenced_goes.
Print Assumptions C53_outside.
Print Assumptions C53_only_removes.
Print Assumptions C53_container_refuted.
Print Assumptions C53_spelling_refuted.
Print Assumptions C53_shadowed_refuted.
Print Assumptions C63_never_reused.
Print Assumptions C63_second_install_fails.
Print Assumptions C63_reuse_refuted.
Print Assumptions C63_first_install.
