From Coq Require Import String Ascii List Bool NArith Arith Lia Permutation.
From Verif Require Import Base BaseFacts FsModel FilesModel InstallModel.
Import ListNotations.
Open Scope nat_scope.
Open Scope list_scope.
Open Scope bool_scope.

(** ** dictionaries by key *)
Lemma dict_get_split : forall V k (v : V) k2 (d : list (str * V)), dict_get k2 ((k, v) :: d) = if str_eqb k2 k then Some v else dict_get k2 d.
Proof. reflexivity. Qed.
Lemma find_app : forall A (P : A -> bool) a b, find P (a ++ b) = match find P a with Some x => Some x | None => find P b end.
Proof. intros A P a b. induction a as [|x a IH]; [reflexivity|]. cbn. destruct (P x); [reflexivity|exact IH]. Qed.
Lemma dict_by_get_gen : forall V (key : V -> str) l d k, dict_get k (fold_left (fun d v => dict_set (key v) v d) l d) =
  match find (fun v => str_eqb k (key v)) (rev l) with Some v => Some v | None => dict_get k d end.
Proof.
  intros V key l. induction l as [|v l IH]; intros d k; [reflexivity|]. cbn [fold_left rev]. rewrite IH, find_app. destruct (find _ (rev l)); [reflexivity|]. cbn [find].
  destruct (str_eqb k (key v)) eqn:E; [apply str_eqb_eq in E; subst; apply dict_get_set_same|apply dict_get_set_other; apply str_eqb_neq; exact E].
Qed.
Lemma dict_by_get : forall V (key : V -> str) l k, dict_get k (dict_by key l) = find (fun v => str_eqb k (key v)) (rev l).
Proof. intros V key l k. unfold dict_by. rewrite dict_by_get_gen. destruct (find _ _); reflexivity. Qed.
Lemma dict_by_nodup_gen : forall V (key : V -> str) l d, NoDup (map fst d) -> NoDup (map fst (fold_left (fun d v => dict_set (key v) v d) l d)).
Proof. intros V key l. induction l as [|v l IH]; intros d H; [exact H|]. cbn [fold_left]. apply IH, dict_set_keys, H. Qed.
Lemma dict_by_nodup : forall V (key : V -> str) l, NoDup (map fst (dict_by key l)).
Proof. intros. apply dict_by_nodup_gen, NoDup_nil. Qed.
Lemma dict_set_in : forall V k (v : V) d e, In e (dict_set k v d) -> e = (k, v) \/ In e d.
Proof.
  intros V k v d e. induction d as [|[k2 v2] d IH]; cbn [dict_set].
  - intros [<-|[]]. left. reflexivity.
  - destruct (str_eqb k k2) eqn:E.
    + apply str_eqb_eq in E. subst. intros [<-|H]; [left; reflexivity|right; right; exact H].
    + intros [<-|H]; [right; left; reflexivity|]. destruct (IH H) as [->|H2]; [left; reflexivity|right; right; exact H2].
Qed.
Lemma dict_by_entries : forall V (key : V -> str) l e, In e (dict_by key l) -> fst e = key (snd e) /\ In (snd e) l.
Proof.
  intros V key l. unfold dict_by. assert (G : forall l d e, In e (fold_left (fun d v => dict_set (key v) v d) l d) -> In e d \/ (fst e = key (snd e) /\ In (snd e) l)).
  { clear l. intro l. induction l as [|v l IH]; intros d e H; [left; exact H|]. cbn [fold_left] in H. destruct (IH _ _ H) as [I|[A B]]; [|right; split; [exact A|right; exact B]].
    apply dict_set_in in I. destruct I as [->|I]; [right; split; [reflexivity|left; reflexivity]|left; exact I]. }
  intros e H. destruct (G l [] e H) as [[]|X]. exact X.
Qed.
Lemma dict_del_in : forall V k (d : list (str * V)) e, In e (dict_del k d) -> In e d.
Proof.
  intros V k d e. induction d as [|[k2 v2] d IH]; [auto|]. cbn [dict_del]. destruct (str_eqb k k2); [right; auto|]. intros [<-|H]; [left; reflexivity|right; auto].
Qed.
Lemma dict_del_nodup : forall V k (d : list (str * V)), NoDup (map fst d) -> NoDup (map fst (dict_del k d)).
Proof.
  intros V k d. induction d as [|[k2 v2] d IH]; intro H; [exact H|]. cbn [dict_del]. inversion H as [|? ? H1 H2]; subst. destruct (str_eqb k k2); [exact H2|]. cbn. apply NoDup_cons; [|apply IH, H2].
  intro I. apply H1. apply in_map_iff in I. destruct I as (e & E & I). apply dict_del_in in I. rewrite <- E. apply in_map. exact I.
Qed.
Lemma nodup_get : forall V k (v : V) d, NoDup (map fst d) -> In (k, v) d -> dict_get k d = Some v.
Proof.
  intros V k v d. induction d as [|[k2 v2] d IH]; intros H I; [contradiction|]. inversion H as [|? ? H1 H2]; subst. rewrite dict_get_split. destruct I as [E|I].
  - injection E as -> ->. rewrite str_eqb_refl. reflexivity.
  - destruct (str_eqb k k2) eqn:E; [|exact (IH H2 I)]. apply str_eqb_eq in E. subst. exfalso. apply H1. apply in_map_iff. exists (k2, v). auto.
Qed.

(** ** the plan *)
Definition op_for (ur : list (str * str)) (sm : list (str * mode)) (pre : option ipkg) (todo : option rpkg) : option op :=
  match todo with
  | Some r => Some (plan_one ur sm pre r)
  | None => option_map ORemove pre
  end.
Lemma plan_one_key : forall ur sm pre r, (forall i, pre = Some i -> i_key i = r_key r) -> op_key (plan_one ur sm pre r) = r_key r.
Proof.
  intros ur sm [i|] r H; [|reflexivity]. specialize (H i eq_refl). cbn [plan_one]. destruct (_ =? _)%N; [|reflexivity]. destruct (_ && _); [reflexivity|]. destruct (_ || _); [exact H|reflexivity].
Qed.
Lemma plan_spec : forall ur sm todo pre, NoDup (map fst pre) -> NoDup (map fst todo) -> (forall e, In e pre -> fst e = i_key (snd e)) -> (forall e, In e todo -> fst e = r_key (snd e)) ->
  (forall o, In o (plan_loop ur sm pre todo) <-> exists k, op_for ur sm (dict_get k pre) (dict_get k todo) = Some o /\ op_key o = k) /\ NoDup (map op_key (plan_loop ur sm pre todo)).
Proof.
  intros ur sm todo. induction todo as [|[k r] todo IH]; intros pre NP NT KP KT; cbn [plan_loop].
  - split.
    + intro o. rewrite in_map_iff. split.
      * intros ([k i] & <- & I). exists k. cbn [snd op_key dict_get op_for]. rewrite (nodup_get _ _ _ _ NP I). split; [reflexivity|]. symmetry. exact (KP _ I).
      * intros (k & E & _). cbn [dict_get op_for] in E. destruct (dict_get k pre) as [i|] eqn:G; [|discriminate]. injection E as <-. exists (k, i). split; [reflexivity|exact (dict_get_in _ _ _ _ G)].
    + rewrite map_map. cbn [op_key]. rewrite (map_ext_in _ fst); [exact NP|]. intros e I. symmetry. exact (KP e I).
  - inversion NT as [|? ? NT1 NT2]; subst. cbn [fst] in NT1. pose proof (KT _ (or_introl eq_refl)) as KR. cbn in KR. subst k.
    assert (PK : op_key (plan_one ur sm (dict_get (r_key r) pre) r) = r_key r).
    { apply plan_one_key. intros i G. apply dict_get_in in G. symmetry. exact (KP _ G). }
    destruct (IH (dict_del (r_key r) pre)) as [IO IN]; [apply dict_del_nodup, NP|exact NT2|intros e I; apply KP; exact (dict_del_in _ _ _ _ I)|intros e I; apply KT; right; exact I|].
    assert (NK : forall o, In o (plan_loop ur sm (dict_del (r_key r) pre) todo) -> op_key o <> r_key r).
    { intros o I E. apply IO in I. destruct I as (k & EO & EK). rewrite E in EK. subst k. rewrite (dict_get_del_same _ _ _ NP) in EO.
      assert (GT : dict_get (r_key r) todo = None) by (apply dict_get_none; exact NT1). rewrite GT in EO. discriminate. }
    split.
    + intro o. split.
      * intros [<-|I].
        -- exists (r_key r). rewrite dict_get_split, str_eqb_refl. split; [reflexivity|exact PK].
        -- pose proof (NK o I) as N. apply IO in I. destruct I as (k & EO & EK). exists k. split; [|exact EK]. rewrite dict_get_split. subst k. assert (X : str_eqb (op_key o) (r_key r) = false) by (apply str_eqb_neq; exact N). rewrite X.
           rewrite dict_get_del_other in EO by exact N. exact EO.
      * intros (k & EO & EK). rewrite dict_get_split in EO. destruct (str_eqb k (r_key r)) eqn:E.
        -- apply str_eqb_eq in E. left. rewrite E in EO. cbn [op_for] in EO. injection EO as <-. reflexivity.
        -- right. apply IO. exists k. split; [|exact EK]. rewrite dict_get_del_other by (apply str_eqb_neq; exact E). exact EO.
    + cbn [map]. apply NoDup_cons; [|exact IN]. rewrite PK. intro I. apply in_map_iff in I. destruct I as (o & E & I). exact (NK o I E).
Qed.
(** executing operations with different keys, in any order *)
Lemma execute_get : forall ur sm ops st, NoDup (map op_key ops) -> NoDup (map fst st) -> forall k,
  dict_get k (fold_left (execute_op ur sm) ops st) =
  match find (fun o => str_eqb k (op_key o)) ops with Some o => effect ur sm o (dict_get k st) | None => dict_get k st end.
Proof.
  intros ur sm ops. induction ops as [|o ops IH]; intros st NO NS k; [reflexivity|]. inversion NO as [|? ? N1 N2]; subst. cbn [fold_left].
  assert (NS' : NoDup (map fst (execute_op ur sm st o))).
  { unfold execute_op. destruct (effect _ _ _ _); [apply dict_set_keys, NS|apply dict_del_nodup, NS]. }
  rewrite (IH _ N2 NS' k). cbn [find]. destruct (str_eqb k (op_key o)) eqn:E.
  - apply str_eqb_eq in E. subst k. destruct (find _ ops) as [o2|] eqn:F.
    + exfalso. apply find_some in F. destruct F as [I E]. apply str_eqb_eq in E. apply N1. rewrite E. apply in_map. exact I.
    + unfold execute_op. destruct (effect ur sm o (dict_get (op_key o) st)) as [i|]; [apply dict_get_set_same|apply dict_get_del_same, NS].
  - apply str_eqb_neq in E. assert (G : dict_get k (execute_op ur sm st o) = dict_get k st).
    { unfold execute_op. destruct (effect _ _ _ _); [apply dict_get_set_other, E|apply dict_get_del_other, E]. }
    rewrite G. reflexivity.
Qed.
Lemma find_by_key : forall (ops : list op) k o, NoDup (map op_key ops) -> In o ops -> op_key o = k -> find (fun o => str_eqb k (op_key o)) ops = Some o.
Proof.
  intros ops k o. induction ops as [|p ops IH]; intros N I E; [contradiction|]. inversion N as [|? ? N1 N2]; subst. cbn [find]. destruct I as [->|I].
  - rewrite str_eqb_refl. reflexivity.
  - destruct (str_eqb (op_key o) (op_key p)) eqn:X; [|exact (IH N2 I eq_refl)]. apply str_eqb_eq in X. exfalso. apply N1. rewrite <- X. apply in_map. exact I.
Qed.
Definition resolved (packages : list rpkg) (k : str) : option rpkg := find (fun r => str_eqb k (r_key r)) (rev (filter (fun r => negb (r_request r)) packages)).
Definition before (installed : list ipkg) (k : str) : option ipkg := find (fun i => str_eqb k (i_key i)) (rev installed).
Lemma execute_plan : forall installed packages ur sm order k, Permutation order (compute_operations installed packages ur sm) ->
  dict_get k (execute ur sm installed order) =
  match op_for ur sm (before installed k) (resolved packages k) with Some o => effect ur sm o (before installed k) | None => before installed k end.
Proof.
  intros installed packages ur sm order k P. unfold compute_operations in P.
  destruct (plan_spec ur sm (dict_by r_key (filter (fun r => negb (r_request r)) packages)) (dict_by i_key installed)) as [PO PN].
  { apply dict_by_nodup. } { apply dict_by_nodup. } { intros e I. apply (dict_by_entries _ _ _ _ I). } { intros e I. apply (dict_by_entries _ _ _ _ I). }
  assert (NO : NoDup (map op_key order)).
  { apply (Permutation_NoDup (l := map op_key (plan_loop ur sm (dict_by i_key installed) (dict_by r_key (filter (fun r => negb (r_request r)) packages))))); [apply Permutation_map, Permutation_sym, P|exact PN]. }
  unfold execute. rewrite (execute_get ur sm order _ NO (dict_by_nodup _ _ _) k). rewrite dict_by_get. fold (before installed k).
  assert (KEYS : forall i r, before installed k = Some i -> resolved packages k = Some r -> i_key i = r_key r).
  { intros i r E1 E2. apply find_some in E1, E2. destruct E1 as [_ E1], E2 as [_ E2]. apply str_eqb_eq in E1, E2. congruence. }
  destruct (op_for ur sm (before installed k) (resolved packages k)) as [o|] eqn:EO.
  - assert (KO : op_key o = k).
    { unfold op_for in EO. destruct (resolved packages k) as [r|] eqn:ER.
      - injection EO as <-. rewrite plan_one_key; [|intros i E; exact (KEYS i r E eq_refl)]. apply find_some in ER. destruct ER as [_ ER]. apply str_eqb_eq in ER. auto.
      - destruct (before installed k) as [i|] eqn:EB; [|discriminate]. injection EO as <-. cbn [op_key]. apply find_some in EB. destruct EB as [_ EB]. apply str_eqb_eq in EB. auto. }
    rewrite (find_by_key order k o NO); [reflexivity| |exact KO]. apply (Permutation_in o (Permutation_sym P)). apply PO. exists k. split; [|exact KO]. rewrite !dict_by_get. exact EO.
  - destruct (find (fun o => str_eqb k (op_key o)) order) as [o|] eqn:F; [|reflexivity]. exfalso. apply find_some in F. destruct F as [I E]. apply str_eqb_eq in E.
    apply (Permutation_in o P) in I. apply PO in I. destruct I as (k2 & EO2 & EK). rewrite EK in E. rewrite <- E in EO2. rewrite !dict_by_get in EO2. change (op_for ur sm (before installed k) (resolved packages k) = Some o) in EO2. congruence.
Qed.
Lemma plan_ops : forall installed packages ur sm o, In o (compute_operations installed packages ur sm) -> op_for ur sm (before installed (op_key o)) (resolved packages (op_key o)) = Some o.
Proof.
  intros installed packages ur sm o I. unfold compute_operations in I.
  destruct (plan_spec ur sm (dict_by r_key (filter (fun r => negb (r_request r)) packages)) (dict_by i_key installed)) as [PO PN].
  { apply dict_by_nodup. } { apply dict_by_nodup. } { intros e J. apply (dict_by_entries _ _ _ _ J). } { intros e J. apply (dict_by_entries _ _ _ _ J). }
  apply PO in I. destruct I as (k & E & EK). subst k. rewrite !dict_by_get in E. exact E.
Qed.

(** ** orphans *)
Inductive reachable (installed : list gpkg) (use : str * bool -> bool) (roots : list gpkg) : gpkg -> Prop :=
| reach_root : forall p, In p roots -> reachable installed use roots p
| reach_dep : forall p d q, reachable installed use roots p -> In d (g_deps p) -> use d = true -> find_pkg installed (fst d) = Some q -> reachable installed use roots q.
Lemma find_pkg_spec : forall installed k p, find_pkg installed k = Some p -> In p installed /\ g_key p = k.
Proof. intros installed k p H. apply find_some in H. destruct H as [I E]. apply str_eqb_eq in E. auto. Qed.
Lemma find_pkg_in : forall installed p, NoDup (map g_key installed) -> In p installed -> find_pkg installed (g_key p) = Some p.
Proof.
  intros installed p. induction installed as [|q l IH]; intros N I; [contradiction|]. inversion N as [|? ? N1 N2]; subst. unfold find_pkg. cbn [find]. destruct I as [->|I].
  - rewrite str_eqb_refl. reflexivity.
  - destruct (str_eqb (g_key q) (g_key p)) eqn:E; [|exact (IH N2 I)]. apply str_eqb_eq in E. exfalso. apply N1. rewrite E. apply in_map. exact I.
Qed.
Lemma str_mem_iff : forall x l, str_mem x l = true <-> In x l.
Proof.
  intros x l. unfold str_mem. rewrite existsb_exists. split.
  - intros (y & I & E). apply str_eqb_eq in E. subst. exact I.
  - intro I. exists x. rewrite str_eqb_refl. auto.
Qed.
Definition targets (installed : list gpkg) (p : gpkg) : list gpkg := flat_map (fun d => match find_pkg installed (fst d) with Some i => [i] | None => [] end) (g_deps p).
Lemma in_targets : forall installed p q, In q (targets installed p) <-> exists d, In d (g_deps p) /\ find_pkg installed (fst d) = Some q.
Proof.
  intros installed p q. unfold targets. rewrite in_flat_map. split.
  - intros (d & I & H). exists d. split; [exact I|]. destruct (find_pkg installed (fst d)); [destruct H as [<-|[]]; reflexivity|contradiction].
  - intros (d & I & H). exists d. split; [exact I|]. rewrite H. left. reflexivity.
Qed.
Record oinv (installed roots work : list gpkg) (done : list str) : Prop := {
  o_in : forall p, In p work -> In p installed;
  o_reach : forall p, In p work -> reachable installed (fun _ => true) roots p;
  o_dreach : forall k, In k done -> exists p, In p installed /\ g_key p = k /\ reachable installed (fun _ => true) roots p;
  o_root : forall p, In p roots -> In (g_key p) done \/ In p work;
  o_closed : forall p q, In p installed -> In (g_key p) done -> In q (targets installed p) -> In (g_key q) done \/ In q work }.
Lemma orphan_loop_spec : forall installed roots, NoDup (map g_key installed) -> forall fuel work done res, oinv installed roots work done -> orphan_loop fuel installed work done = Some res ->
  oinv installed roots [] res.
Proof.
  intros installed roots ND fuel. induction fuel as [|fuel IH]; intros work done res V H; cbn [orphan_loop] in H.
  - destruct (rev work) as [|n b] eqn:E; [|discriminate]. injection H as <-. assert (W : work = []) by (rewrite <- (rev_involutive work), E; reflexivity). subst. exact V.
  - destruct (rev work) as [|n b] eqn:E; [injection H as <-; assert (W : work = []) by (rewrite <- (rev_involutive work), E; reflexivity); subst; exact V|].
    assert (W : work = rev b ++ [n]) by (rewrite <- (rev_involutive work), E; reflexivity). rewrite W in V. destruct V as [VI VR VD VRo VC].
    assert (IN : In n (rev b ++ [n])) by (apply in_app_iff; right; left; reflexivity).
    destruct (str_mem (g_key n) done) eqn:M.
    + apply str_mem_iff in M. apply (IH _ _ _ (Build_oinv installed roots (rev b) done
         (fun p I => VI p (proj2 (in_app_iff _ _ _) (or_introl I))) (fun p I => VR p (proj2 (in_app_iff _ _ _) (or_introl I))) VD
         ltac:(intros p I; destruct (VRo p I) as [X|X]; [left; exact X|]; apply in_app_iff in X; destruct X as [X|[<-|[]]]; [right; exact X|left; exact M])
         ltac:(intros p q I D T; destruct (VC p q I D T) as [X|X]; [left; exact X|]; apply in_app_iff in X; destruct X as [X|[<-|[]]]; [right; exact X|left; exact M])) H).
    + fold (targets installed n) in H. refine (IH _ _ _ (Build_oinv installed roots (rev b ++ targets installed n) (g_key n :: done) _ _ _ _ _) H).
      * intros p I. apply in_app_iff in I. destruct I as [I|I]; [apply VI, in_app_iff; left; exact I|]. apply in_targets in I. destruct I as (d & _ & F). apply (find_pkg_spec _ _ _ F).
      * intros p I. apply in_app_iff in I. destruct I as [I|I]; [apply VR, in_app_iff; left; exact I|]. apply in_targets in I. destruct I as (d & I & F). exact (reach_dep _ _ _ n d p (VR n IN) I eq_refl F).
      * intros k [<-|I]; [exists n; split; [exact (VI n IN)|split; [reflexivity|exact (VR n IN)]]|exact (VD k I)].
      * intros p I. destruct (VRo p I) as [X|X]; [left; right; exact X|]. apply in_app_iff in X. destruct X as [X|[<-|[]]]; [right; apply in_app_iff; left; exact X|left; left; reflexivity].
      * intros p q I D T. destruct D as [D|D].
        -- right. apply in_app_iff. right. assert (p = n); [|subst; exact T]. pose proof (find_pkg_in _ _ ND I) as F1. pose proof (find_pkg_in _ _ ND (VI n IN)) as F2. rewrite <- D in F1. congruence.
        -- destruct (VC p q I D T) as [X|X]; [left; right; exact X|]. apply in_app_iff in X. destruct X as [X|[<-|[]]]; [right; apply in_app_iff; left; exact X|left; left; reflexivity].
Qed.
Lemma orphans_exact : forall fuel installed res, NoDup (map g_key installed) -> find_orphan_packages fuel installed = Some res -> forall p,
  In p res <-> In p installed /\ ~ reachable installed (fun _ => true) (filter g_requested installed) p.
Proof.
  intros fuel installed res ND H p. unfold find_orphan_packages in H. destruct (orphan_loop fuel installed (filter g_requested installed) []) as [done|] eqn:E; [|discriminate]. injection H as <-.
  assert (V0 : oinv installed (filter g_requested installed) (filter g_requested installed) []).
  { constructor; try contradiction; try (intros q I; right; exact I).
    - intros q I. apply filter_In in I. apply I.
    - intros q I. apply reach_root, I. }
  pose proof (orphan_loop_spec installed _ ND fuel _ _ _ V0 E) as [VI VR VD VRo VC].
  assert (DR : forall q, In q installed -> (In (g_key q) done <-> reachable installed (fun _ => true) (filter g_requested installed) q)).
  { intros q IQ. split.
    - intro D. destruct (VD _ D) as (r & I & K & R). assert (q = r); [|subst; exact R]. pose proof (find_pkg_in _ _ ND IQ) as F1. pose proof (find_pkg_in _ _ ND I) as F2. rewrite K in F2. congruence.
    - intro R. assert (X : In q installed /\ In (g_key q) done); [|apply X]. clear IQ. induction R as [q I|q d r R IH I U F].
      + split; [apply filter_In in I; apply I|]. destruct (VRo q I) as [X|[]]; exact X.
      + destruct IH as [IQ ID]. split; [apply (find_pkg_spec _ _ _ F)|]. destruct (VC q r IQ ID) as [X|[]]; [|exact X]. apply in_targets. exists d. auto. }
  rewrite filter_In, negb_true_iff. split; intros [I N]; (split; [exact I|]).
  - intro R. apply (DR p I) in R. apply str_mem_iff in R. congruence.
  - destruct (str_mem (g_key p) done) eqn:M; [|reflexivity]. exfalso. apply N. apply (DR p I). apply str_mem_iff. exact M.
Qed.
(** the loop ends *)
Definition cost (installed : list gpkg) (done : list str) : nat := fold_right (fun p n => (if str_mem (g_key p) done then 0 else S (length (g_deps p))) + n) 0 installed.
Lemma cost_cons : forall p l done, cost (p :: l) done = (if str_mem (g_key p) done then 0 else S (length (g_deps p))) + cost l done.
Proof. reflexivity. Qed.
Lemma cost_same : forall installed done k, ~ In k (map g_key installed) -> cost installed (k :: done) = cost installed done.
Proof.
  intros installed done k N. induction installed as [|p l IH]; [reflexivity|]. rewrite !cost_cons, IH by (intro I; apply N; right; exact I).
  assert (E : str_mem (g_key p) (k :: done) = str_mem (g_key p) done); [|rewrite E; reflexivity]. cbn. destruct (str_eqb (g_key p) k) eqn:X; [|reflexivity]. apply str_eqb_eq in X. exfalso. apply N. left. exact X.
Qed.
Lemma cost_drop : forall installed done n, NoDup (map g_key installed) -> In n installed -> str_mem (g_key n) done = false ->
  cost installed (g_key n :: done) + S (length (g_deps n)) <= cost installed done.
Proof.
  intros installed done n. induction installed as [|p l IH]; intros N I M; [contradiction|]. inversion N as [|? ? N1 N2]; subst. rewrite !cost_cons. destruct I as [->|I].
  - rewrite M. assert (E : str_mem (g_key n) (g_key n :: done) = true) by (apply str_mem_iff; left; reflexivity). rewrite E. rewrite (cost_same l done (g_key n) N1). lia.
  - specialize (IH N2 I M). destruct (str_mem (g_key p) done) eqn:MP.
    + assert (E : str_mem (g_key p) (g_key n :: done) = true) by (apply str_mem_iff; right; apply str_mem_iff; exact MP). rewrite E. lia.
    + destruct (str_mem (g_key p) (g_key n :: done)); lia.
Qed.
Lemma targets_len : forall installed p, length (targets installed p) <= length (g_deps p).
Proof. intros installed p. unfold targets. induction (g_deps p) as [|d l IH]; [auto|]. cbn [flat_map]. rewrite app_length. destruct (find_pkg installed (fst d)); cbn; lia. Qed.
Lemma orphan_loop_ends : forall installed, NoDup (map g_key installed) -> forall fuel work done, (forall p, In p work -> In p installed) -> length work + cost installed done <= fuel ->
  orphan_loop fuel installed work done <> None.
Proof.
  intros installed ND fuel. induction fuel as [|fuel IH]; intros work done WI L; cbn [orphan_loop].
  - destruct work as [|p w] eqn:E; [discriminate|cbn in L; lia].
  - destruct (rev work) as [|n b] eqn:E; [discriminate|]. assert (W : work = rev b ++ [n]) by (rewrite <- (rev_involutive work), E; reflexivity). rewrite W in *. rewrite app_length in L. cbn in L.
    assert (IN : In n installed) by (apply WI, in_app_iff; right; left; reflexivity).
    destruct (str_mem (g_key n) done) eqn:M.
    + apply IH; [intros p I; apply WI, in_app_iff; left; exact I|lia].
    + fold (targets installed n). apply IH.
      * intros p I. apply in_app_iff in I. destruct I as [I|I]; [apply WI, in_app_iff; left; exact I|]. apply in_targets in I. destruct I as (d & _ & F). apply (find_pkg_spec _ _ _ F).
      * rewrite app_length. pose proof (targets_len installed n). pose proof (cost_drop installed done n ND IN M). lia.
Qed.
Lemma orphans_ends : forall installed, NoDup (map g_key installed) -> exists res, find_orphan_packages (length installed + cost installed []) installed = Some res.
Proof.
  intros installed ND. unfold find_orphan_packages. destruct (orphan_loop _ _ _ _) as [d|] eqn:E; [eexists; reflexivity|]. exfalso. refine (orphan_loop_ends installed ND _ _ _ _ _ E).
  - intros p I. apply filter_In in I. apply I.
  - assert (length (filter g_requested installed) <= length installed); [|lia]. clear. induction installed as [|p l IH]; [auto|]. cbn. destruct (g_requested p); cbn; lia.
Qed.

(** ** statements over members *)
Lemma find_rev_unique : forall A (key : A -> str) l x, NoDup (map key l) -> In x l -> find (fun v => str_eqb (key x) (key v)) (rev l) = Some x.
Proof.
  intros A key l x N I. destruct (find (fun v => str_eqb (key x) (key v)) (rev l)) as [y|] eqn:F.
  - apply find_some in F. destruct F as [IY E]. apply str_eqb_eq in E. apply in_rev in IY. f_equal. clear -N I IY E. induction l as [|z l IH]; [contradiction|]. inversion N as [|? ? N1 N2]; subst. destruct I as [->|I], IY as [->|IY]; auto.
    + exfalso. apply N1. rewrite E. apply in_map. exact IY.
    + exfalso. apply N1. rewrite <- E. apply in_map. exact I.
  - exfalso. pose proof (find_none _ _ F x (proj1 (in_rev l x) I)) as X. cbn in X. rewrite str_eqb_refl in X. discriminate.
Qed.
Lemma resolved_in : forall packages k r, resolved packages k = Some r -> In r packages /\ r_request r = false /\ r_key r = k.
Proof. intros packages k r H. apply find_some in H. destruct H as [I E]. apply in_rev in I. apply filter_In in I. apply str_eqb_eq in E. rewrite negb_true_iff in I. destruct I as [I R]. auto. Qed.
Lemma before_in : forall installed k i, before installed k = Some i -> In i installed /\ i_key i = k.
Proof. intros installed k i H. apply find_some in H. destruct H as [I E]. apply in_rev in I. apply str_eqb_eq in E. auto. Qed.
Lemma resolved_some : forall packages r, NoDup (map r_key (filter (fun r => negb (r_request r)) packages)) -> In r packages -> r_request r = false -> resolved packages (r_key r) = Some r.
Proof. intros packages r N I R. unfold resolved. apply (find_rev_unique _ r_key _ _ N). apply filter_In. rewrite R. auto. Qed.
Lemma before_some : forall installed i, NoDup (map i_key installed) -> In i installed -> before installed (i_key i) = Some i.
Proof. intros installed i N I. exact (find_rev_unique _ i_key _ _ N I). Qed.
Lemma before_none : forall installed k, before installed k = None -> forall i, In i installed -> i_key i <> k.
Proof. intros installed k H i I E. pose proof (find_none _ _ H i (proj1 (in_rev installed i) I)) as X. cbn in X. rewrite E, str_eqb_refl in X. discriminate. Qed.
Lemma resolved_none : forall packages k, resolved packages k = None -> forall r, In r packages -> r_request r = false -> r_key r <> k.
Proof.
  intros packages k H r I R E. assert (J : In r (rev (filter (fun r => negb (r_request r)) packages))) by (apply in_rev; rewrite rev_involutive; apply filter_In; rewrite R; auto).
  pose proof (find_none _ _ H r J) as X. cbn in X. rewrite E, str_eqb_refl in X. discriminate.
Qed.

Section Plan.
Variables (installed : list ipkg) (packages : list rpkg) (ur : list (str * str)) (sm : list (str * mode)) (order : list op).
Hypothesis ND : NoDup (map i_key installed).
Hypothesis NR : NoDup (map r_key (filter (fun r => negb (r_request r)) packages)).
Hypothesis FI : forall r, In r packages -> r_installed r = true -> exists i, In i installed /\ i_key i = r_key r /\ i_version i = r_version r.
Hypothesis PO : Permutation order (compute_operations installed packages ur sm).
Lemma plan_versions : forall k v, (exists i, dict_get k (execute ur sm installed order) = Some i /\ i_version i = v) <->
  (exists r, In r packages /\ r_request r = false /\ r_key r = k /\ r_version r = v).
Proof.
  intros k v. rewrite (execute_plan _ _ _ _ _ k PO). destruct (resolved packages k) as [r|] eqn:ER; cbn [op_for].
  - pose proof (resolved_in _ _ _ ER) as (IR & RR & RK).
    assert (G : exists i, effect ur sm (plan_one ur sm (before installed k) r) (before installed k) = Some i /\ i_version i = r_version r).
    { destruct (before installed k) as [i|] eqn:EB; cbn [plan_one].
      - pose proof (before_in _ _ _ EB) as (II & IK). destruct (i_version i =? r_version r)%N eqn:EV.
        + apply N.eqb_eq in EV. destruct (_ && _); [exists i; auto|]. destruct (_ || _); [eexists; split; [reflexivity|exact EV]|]. cbn [effect]. destruct (r_installed r); eexists; (split; [reflexivity|]); [exact EV|reflexivity].
        + cbn [effect]. destruct (r_installed r) eqn:RI; [|eexists; split; reflexivity]. exfalso. destruct (FI r IR RI) as (j & J1 & J2 & J3). pose proof (before_some _ _ ND J1) as B. rewrite J2, RK, EB in B. injection B as <-. apply N.eqb_neq in EV. congruence.
      - eexists. split; reflexivity. }
    destruct G as (i & G1 & G2). split.
    + intros (j & E & V). exists r. rewrite G1 in E. injection E as <-. rewrite <- G2. auto.
    + intros (r2 & I2 & R2 & K2 & V2). exists i. split; [exact G1|]. rewrite G2. pose proof (resolved_some _ _ NR I2 R2) as X. rewrite K2, ER in X. injection X as <-. exact V2.
  - split.
    + intros (j & E & V). destruct (before installed k) as [i|]; cbn in E; discriminate.
    + intros (r & I & R & K & V). exfalso. exact (resolved_none _ _ ER r I R K).
Qed.
Lemma plan_right : forall r i, In r packages -> r_request r = false -> In i installed -> i_key i = r_key r -> i_version i = r_version r ->
  (dict_get (r_key r) sm = None \/ dict_get (r_key r) sm = Some Auto \/ dict_get (r_key r) sm = Some (i_mode i)) ->
  (dict_get (r_key r) ur = None \/ dict_get (r_key r) ur = i_request i) ->
  (forall o, In o (compute_operations installed packages ur sm) -> op_key o = r_key r -> o = OSkip r) /\
  dict_get (r_key r) (execute ur sm installed order) = Some i.
Proof.
  intros r i IR RR II K V HM HU. pose proof (resolved_some _ _ NR IR RR) as ER. pose proof (before_some _ _ ND II) as EB. rewrite K in EB.
  assert (P : plan_one ur sm (before installed (r_key r)) r = OSkip r).
  { rewrite EB. cbn [plan_one]. rewrite V, N.eqb_refl, K.
    assert (M : mode_eqb (opt_or (dict_get (r_key r) sm) Auto) Auto || mode_eqb (opt_or (dict_get (r_key r) sm) Auto) (i_mode i) = true) by (destruct HM as [->|[->| ->]]; [reflexivity|reflexivity|cbn; destruct (i_mode i); reflexivity]).
    assert (U : is_none (dict_get (r_key r) ur) || opt_eqb str_eqb (i_request i) (dict_get (r_key r) ur) = true) by (destruct HU as [->| ->]; [reflexivity|]; destruct (i_request i); [cbn; apply str_eqb_refl|reflexivity]).
    rewrite M, U. reflexivity. }
  split.
  - intros o IO KO. apply plan_ops in IO. rewrite KO, ER in IO. cbn [op_for] in IO. rewrite P in IO. congruence.
  - rewrite (execute_plan _ _ _ _ _ _ PO), ER. cbn [op_for]. rewrite P. exact EB.
Qed.
Lemma plan_needless : forall o, In o (compute_operations installed packages ur sm) ->
  match o with
  | OSkip r => In r packages
  | OInstall r => In r packages /\ forall i, In i installed -> i_key i <> r_key r
  | OUpdate r => In r packages /\ exists i, In i installed /\ i_key i = r_key r /\
      (i_version i <> r_version r \/ exists m, dict_get (r_key r) sm = Some m /\ m <> Auto /\ m <> i_mode i)
  | OMark i => In i installed /\ exists d, dict_get (i_key i) ur = Some d /\ i_request i <> Some d
  | ORemove i => In i installed /\ forall r, In r packages -> r_request r = false -> r_key r <> i_key i
  end.
Proof.
  intros o I. apply plan_ops in I. destruct (resolved packages (op_key o)) as [r|] eqn:ER; cbn [op_for] in I.
  - pose proof (resolved_in _ _ _ ER) as (IR & RR & RK). destruct (before installed (op_key o)) as [i|] eqn:EB.
    + pose proof (before_in _ _ _ EB) as (II & IK). cbn [plan_one] in I. destruct (i_version i =? r_version r)%N eqn:EV.
      * apply N.eqb_eq in EV. set (m := opt_or (dict_get (r_key r) sm) Auto) in *. destruct (mode_eqb m Auto || mode_eqb m (i_mode i)) eqn:M; cbn [andb] in I.
        -- destruct (is_none (dict_get (i_key i) ur) || opt_eqb str_eqb (i_request i) (dict_get (i_key i) ur)) eqn:U; injection I as <-; [exact IR|]. split; [exact II|]. apply orb_false_iff in U. destruct U as [U1 U2].
           destruct (dict_get (i_key i) ur) as [d|]; [|discriminate]. exists d. split; [reflexivity|]. intro E. rewrite E in U2. cbn in U2. rewrite str_eqb_refl in U2. discriminate.
        -- injection I as <-. split; [exact IR|]. exists i. split; [exact II|]. split; [exact (eq_trans IK (eq_sym eq_refl))|]. right. apply orb_false_iff in M. destruct M as [M1 M2]. unfold m in M1, M2. destruct (dict_get (r_key r) sm) as [x|]; [|discriminate]. exists x. cbn in M1, M2. split; [reflexivity|]. split; intro E; subst x; [discriminate|destruct (i_mode i); discriminate].
      * injection I as <-. split; [exact IR|]. exists i. split; [exact II|]. split; [exact IK|]. left. apply N.eqb_neq. exact EV.
    + cbn [plan_one] in I. injection I as <-. split; [exact IR|]. exact (before_none _ _ EB).
  - destruct (before installed (op_key o)) as [i|] eqn:EB; [|discriminate]. injection I as <-. pose proof (before_in _ _ _ EB) as (II & IK). split; [exact II|]. exact (resolved_none _ _ ER).
Qed.
Lemma plan_requests : forall r d, In r packages -> r_request r = false -> dict_get (r_key r) ur = Some d ->
  exists i, dict_get (r_key r) (execute ur sm installed order) = Some i /\ i_request i = Some d.
Proof.
  intros r d IR RR HU. rewrite (execute_plan _ _ _ _ _ _ PO), (resolved_some _ _ NR IR RR). cbn [op_for]. destruct (before installed (r_key r)) as [i|] eqn:EB.
  - pose proof (before_in _ _ _ EB) as (II & IK). cbn [plan_one]. rewrite IK, HU. cbn [is_none orb]. destruct (i_version i =? r_version r)%N.
    + destruct (mode_eqb _ Auto || mode_eqb _ (i_mode i)); cbn [andb].
      * destruct (opt_eqb str_eqb (i_request i) (Some d)) eqn:E.
        -- exists i. split; [reflexivity|]. destruct (i_request i) as [e|]; [|discriminate]. cbn in E. apply str_eqb_eq in E. subst. reflexivity.
        -- cbn [effect op_key option_map]. rewrite IK, HU. eexists. split; reflexivity.
      * cbn [effect op_key]. rewrite HU. destruct (r_installed r); eexists; split; reflexivity.
    + cbn [effect op_key]. rewrite HU. destruct (r_installed r); eexists; split; reflexivity.
  - cbn [plan_one effect op_key]. rewrite HU. eexists. split; reflexivity.
Qed.
Lemma plan_modes : forall r m, In r packages -> r_request r = false -> r_installed r = false -> dict_get (r_key r) sm = Some m -> m <> Auto ->
  exists i, dict_get (r_key r) (execute ur sm installed order) = Some i /\ i_mode i = m.
Proof.
  intros r m IR RR RI HM NA. rewrite (execute_plan _ _ _ _ _ _ PO), (resolved_some _ _ NR IR RR). cbn [op_for].
  assert (IM : install_mode m = m) by (destruct m; [reflexivity|reflexivity|congruence]).
  destruct (before installed (r_key r)) as [i|] eqn:EB.
  - cbn [plan_one]. rewrite HM. cbn [opt_or]. assert (MA : mode_eqb m Auto = false) by (destruct m; [reflexivity|reflexivity|congruence]). rewrite MA. cbn [orb]. destruct (i_version i =? r_version r)%N.
    + destruct (mode_eqb m (i_mode i)) eqn:E.
      * assert (EM : i_mode i = m) by (destruct m, (i_mode i); reflexivity || discriminate). cbn [andb]. destruct (_ || _); (eexists; split; [reflexivity|exact EM]).
      * cbn [andb effect op_key]. rewrite RI, HM. eexists. split; [reflexivity|exact IM].
    + cbn [effect op_key]. rewrite RI, HM. eexists. split; [reflexivity|exact IM].
  - cbn [plan_one effect op_key]. rewrite HM. eexists. split; [reflexivity|exact IM].
Qed.
End Plan.

Lemma filter_nil_iff : forall A (f : A -> bool) l, filter f l = [] <-> forall x, In x l -> f x = false.
Proof.
  intros A f l. induction l as [|x l IH]; [split; [intros _ y []|reflexivity]|]. cbn. destruct (f x) eqn:E.
  - split; [discriminate|]. intro H. specialize (H x (or_introl eq_refl)). congruence.
  - rewrite IH. split; intros H y; [intros [<-|I]; auto|intro I; apply H; right; exact I].
Qed.
Section Uninstall.
Variables (key : str -> str) (installed : list gpkg) (to_remove : list str) (solution : list gpkg).
Let remaining := filter (fun p => g_requested p && negb (str_mem (g_name p) to_remove)) installed.
Let needed := reachable installed snd remaining.
Hypothesis KEY : forall p, In p installed -> g_key p = key (g_name p).
Hypothesis ND : NoDup (map g_key installed).
Hypothesis SOL : forall p, In p solution <-> needed p.
Hypothesis SPELL : forall n p, In n to_remove -> In p installed -> key n = key (g_name p) -> n = g_name p.
Lemma needed_in : forall p, needed p -> In p installed.
Proof. intros p H. destruct H as [p I|p d q R I U F]; [apply filter_In in I; apply I|apply (find_pkg_spec _ _ _ F)]. Qed.
Lemma key_unique : forall p q, In p installed -> In q installed -> g_key p = g_key q -> p = q.
Proof. intros p q I J E. pose proof (find_pkg_in _ _ ND I) as A. pose proof (find_pkg_in _ _ ND J) as B. rewrite E in A. congruence. Qed.
Lemma in_solution_key : forall p, In p installed -> (str_mem (g_key p) (map g_key solution) = true <-> needed p).
Proof.
  intros p I. rewrite str_mem_iff, in_map_iff. split.
  - intros (q & E & J). apply SOL in J. rewrite (key_unique p q I (needed_in q J) (eq_sym E)). exact J.
  - intro N. exists p. split; [reflexivity|apply SOL, N].
Qed.
Lemma uninstall_kept : forall p, In p installed ->
  (needed p -> In (GP (g_name p) (g_key p) (g_requested p && negb (str_mem (g_name p) to_remove)) (g_deps p)) (fst (uninstall key installed to_remove solution))) /\
  (~ needed p -> forall q, In q (fst (uninstall key installed to_remove solution)) -> g_key q <> g_key p).
Proof.
  intros p I. unfold uninstall. cbn [fst]. set (um := map key (filter (fun n => str_mem n (map g_name solution)) to_remove)).
  split.
  - intro N. apply in_map_iff. exists p. split; [|apply filter_In; split; [exact I|apply in_solution_key; assumption]].
    assert (U : str_mem (g_key p) um = str_mem (g_name p) to_remove).
    { apply Bool.eq_true_iff_eq. rewrite !str_mem_iff. unfold um. rewrite in_map_iff. split.
      - intros (n & E & J). apply filter_In in J. destruct J as [J _]. rewrite (KEY p I) in E. rewrite <- (SPELL n p J I E). exact J.
      - intro J. exists (g_name p). split; [symmetry; apply KEY; exact I|]. apply filter_In. split; [exact J|]. apply str_mem_iff, in_map, SOL, N. }
    rewrite U. destruct p as [n k r d]. cbn [g_name g_key g_requested g_deps] in *. destruct (str_mem n to_remove); cbn [negb]; [rewrite andb_false_r; reflexivity|rewrite andb_true_r; reflexivity].
  - intros N q J E. apply in_map_iff in J. destruct J as (q0 & EQ & J). apply filter_In in J. destruct J as [J M]. apply (in_solution_key q0 J) in M. apply N.
    assert (KQ : g_key q = g_key q0) by (rewrite <- EQ; destruct (str_mem (g_key q0) um); reflexivity). rewrite (key_unique p q0 I J); [exact M|congruence].
Qed.
Lemma uninstall_only : forall q, In q (fst (uninstall key installed to_remove solution)) -> exists p, In p installed /\ g_key p = g_key q /\ g_name p = g_name q /\ g_deps p = g_deps q /\ needed p.
Proof.
  intros q J. apply in_map_iff in J. destruct J as (q0 & EQ & J). apply filter_In in J. destruct J as [J M]. exists q0. split; [exact J|].
  apply (in_solution_key q0 J) in M. rewrite <- EQ. destruct (str_mem _ _); auto.
Qed.
Lemma uninstall_reported : forall n, In n (snd (uninstall key installed to_remove solution)) <-> In n to_remove /\ forall p, needed p -> key (g_name p) <> key n.
Proof.
  intro n. unfold uninstall. cbn [snd]. rewrite filter_In, negb_true_iff. split; intros [I H]; (split; [exact I|]).
  - intros p N E. pose proof (SPELL n p I (needed_in p N) (eq_sym E)) as X. subst n. assert (Y : str_mem (g_name p) (map g_name solution) = true) by (apply str_mem_iff, in_map, SOL, N). congruence.
  - destruct (str_mem n (map g_name solution)) eqn:M; [|reflexivity]. exfalso. apply str_mem_iff, in_map_iff in M. destruct M as (p & E & J). apply SOL in J. apply (H p J). rewrite E. reflexivity.
Qed.
End Uninstall.
