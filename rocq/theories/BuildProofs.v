(** Lemmas about package builds and the build cache (BuildModel). *)
From Coq Require Import String Ascii List Bool NArith Arith Lia Relations Wellfounded.
From Verif Require Import Base BaseFacts NamesModel BuildModel.
Import ListNotations.
Open Scope nat_scope.
Open Scope list_scope.
Open Scope bool_scope.

Definition needed_by (w : world) (a b : pkg) : Prop := In a (needs w b).
Lemma pmem_iff : forall p l, pmem p l = true <-> In p l.
Proof.
  intros p l. unfold pmem. rewrite existsb_exists. split.
  - intros (x & I & E). apply Nat.eqb_eq in E. now subst.
  - intros I. exists p. split; [exact I|apply Nat.eqb_refl].
Qed.
Lemma stored_in : forall c p e, stored c p = Some e -> In (p, e) c.
Proof.
  induction c as [|[q e'] c IH]; intros p e; cbn [stored]; [discriminate|].
  destruct (p =? q) eqn:E.
  - intros H. injection H as ->. apply Nat.eqb_eq in E. subst. now left.
  - intros H. right. now apply IH.
Qed.
Lemma stored_filter : forall c p q, q <> p -> stored (filter (fun e : pkg * entry => negb (fst e =? p)) c) q = stored c q.
Proof.
  induction c as [|[x e] c IH]; intros p q N; cbn [filter stored fst]; [reflexivity|].
  destruct (x =? p) eqn:E; cbn [negb stored].
  - apply Nat.eqb_eq in E. subst. destruct (q =? p) eqn:E2; [apply Nat.eqb_eq in E2; contradiction|now apply IH].
  - destruct (q =? x); [reflexivity|now apply IH].
Qed.

(** * A missing hook is no result of an installation or of the build of a wheel *)
Ltac old_store c := match goal with |- context [filter ?f c] => let c0 := fresh "c0" in set (c0 := filter f c) end.
Lemma get_hook : forall bi m q path c p' c', (forall path c p' c', bi false q path c <> (NoMetaHook, p', c')) ->
  get_or_build bi m q path c <> (NoMetaHook, p', c').
Proof.
  intros bi m q path c p' c' Nb. unfold get_or_build. destruct (serves m (stored c q)); [discriminate|]. cbv zeta.
  old_store c. clearbody c0. intros H.
  destruct (bi m q _ c0) as [[o1 l1] c1] eqn:E1. destruct o1; try discriminate. destruct m.
  - destruct (bi false q _ c1) as [[o2 l2] c2] eqn:E2. destruct o2; try discriminate. now apply Nb in E2.
  - now apply Nb in E1.
Qed.
Lemma requests_hook : forall w bi m l, (forall q path c p' c', bi false q path c <> (NoMetaHook, p', c')) ->
  forall path c p' c', request_all w bi m l path c <> (NoMetaHook, p', c').
Proof.
  intros w bi m l Nb. induction l as [|q l IHl]; intros pa ca p1 c1; cbn [request_all]; [discriminate|].
  destruct (m && published w q); [apply IHl|].
  destruct (get_or_build bi m q pa ca) as [[o2 p2] c2] eqn:E.
  destruct o2; try discriminate; [apply IHl|]. exfalso. revert E. apply get_hook. intros; apply Nb.
Qed.
Lemma build_hook : forall fuel w p path c p' c', build fuel w false p path c <> (NoMetaHook, p', c').
Proof.
  induction fuel as [|fuel IH]; intros w p path c p' c'; cbn [build].
  - destruct (pmem p path); discriminate.
  - destruct (pmem p path); [discriminate|]. unfold install.
    destruct (request_all w (build fuel w) true (needs w p) (Some (path ++ [p])) c) as [[o1 p1] c1] eqn:E1.
    destruct o1; try discriminate.
    + destruct (request_all w (build fuel w) false (needs w p) p1 c1) as [[o2 p2] c2] eqn:E2.
      destruct o2; try discriminate. exfalso. revert E2. apply requests_hook. intros; apply IH.
    + exfalso. revert E1. apply requests_hook. intros; apply IH.
Qed.
Lemma install_hook : forall fuel w l path c p' c', install w (build fuel w) l path c <> (NoMetaHook, p', c').
Proof.
  intros fuel w l path c p' c'. unfold install.
  destruct (request_all w (build fuel w) true l path c) as [[o1 p1] c1] eqn:E1.
  destruct o1; try discriminate.
  - apply requests_hook. intros; apply build_hook.
  - exfalso. revert E1. apply requests_hook. intros; apply build_hook.
Qed.

(** * A build that succeeds has no endless chain of requirements *)
Definition good (w : world) (c : store) : Prop := forall q e, In (q, e) c -> Acc (needed_by w) q.
Definition settled (o : outcome) : Prop := o = Built \/ o = NoMetaHook.
Definition acc_spec (w : world) (bi : bool -> pkg -> list pkg -> store -> result) : Prop :=
  forall om p path c o path' c', good w c -> bi om p path c = (o, path', c') -> good w c' /\ (settled o -> Acc (needed_by w) p).
Lemma good_filter : forall w c f, good w c -> good w (filter f c).
Proof. intros w c f G q e I. apply filter_In in I. exact (G q e (proj1 I)). Qed.
Lemma good_cons : forall w c p e, good w c -> Acc (needed_by w) p -> good w ((p, e) :: c).
Proof. intros w c p e G A q e' [I|I]; [injection I as <- _; exact A|exact (G q e' I)]. Qed.
Lemma get_acc : forall w bi, acc_spec w bi -> forall m p path c o path' c', good w c ->
  get_or_build bi m p path c = (o, path', c') -> good w c' /\ (o = Built -> Acc (needed_by w) p).
Proof.
  intros w bi S m p path c o path' c' G. unfold get_or_build.
  destruct (serves m (stored c p)) eqn:Es.
  - intros H. injection H as <- <- <-. split; [exact G|intros _].
    destruct (stored c p) as [e|] eqn:E; [|discriminate]. exact (G p e (stored_in _ _ _ E)).
  - cbv zeta. old_store c. assert (G0 : good w c0) by apply (good_filter w c _ G). clearbody c0.
    destruct (bi m p _ c0) as [[o1 l1] c1] eqn:E1. destruct (S _ _ _ _ _ _ _ G0 E1) as [G1 A1].
    destruct o1.
    + intros H. injection H as <- <- <-. split; [apply good_cons; [exact G1|apply A1; now left]|intros _; apply A1; now left].
    + intros H. injection H as <- <- <-. split; [exact G1|discriminate].
    + destruct m.
      * destruct (bi false p _ c1) as [[o2 l2] c2] eqn:E2. destruct (S _ _ _ _ _ _ _ G1 E2) as [G2 A2].
        destruct o2; intros H; injection H as <- <- <-.
        -- split; [apply good_cons; [exact G2|apply A2; now left]|intros _; apply A2; now left].
        -- split; [exact G2|discriminate].
        -- split; [exact G2|discriminate].
        -- split; [exact G2|discriminate].
      * intros H. injection H as <- <- <-. split; [exact G1|discriminate].
    + intros H. injection H as <- <- <-. split; [exact G1|discriminate].
Qed.
Lemma requests_acc : forall w bi, acc_spec w bi -> forall m l path c o path' c', good w c ->
  request_all w bi m l path c = (o, path', c') -> good w c' /\ (o = Built -> m = false -> forall q, In q l -> Acc (needed_by w) q).
Proof.
  intros w bi S m l. induction l as [|p l IH]; intros path c o path' c' G; cbn [request_all].
  - intros H. injection H as <- <- <-. split; [exact G|intros _ _ q []].
  - destruct (m && published w p) eqn:Em.
    + intros H. destruct (IH _ _ _ _ _ G H) as [G' A]. split; [exact G'|].
      intros Ho Hm. subst m. discriminate.
    + destruct (get_or_build bi m p path c) as [[o1 p1] c1] eqn:E1.
      destruct (get_acc w bi S _ _ _ _ _ _ _ G E1) as [G1 A1].
      destruct o1.
      * intros H. destruct (IH _ _ _ _ _ G1 H) as [G' A]. split; [exact G'|].
        intros Ho Hm q [I|I]; [subst q; now apply A1|now apply A].
      * intros H. injection H as <- <- <-. split; [exact G1|discriminate].
      * intros H. injection H as <- <- <-. split; [exact G1|discriminate].
      * intros H. injection H as <- <- <-. split; [exact G1|discriminate].
Qed.
Lemma install_acc : forall w bi, acc_spec w bi -> forall l path c o path' c', good w c ->
  install w bi l path c = (o, path', c') -> good w c' /\ (o = Built -> forall q, In q l -> Acc (needed_by w) q).
Proof.
  intros w bi S l path c o path' c' G. unfold install.
  destruct (request_all w bi true l path c) as [[o1 p1] c1] eqn:E1.
  destruct (requests_acc w bi S _ _ _ _ _ _ _ G E1) as [G1 _].
  destruct o1.
  - intros H. destruct (requests_acc w bi S _ _ _ _ _ _ _ G1 H) as [G2 A]. split; [exact G2|]. intros Ho q I. now apply A.
  - intros H. injection H as <- <- <-. split; [exact G1|discriminate].
  - intros H. injection H as <- <- <-. split; [exact G1|discriminate].
  - intros H. injection H as <- <- <-. split; [exact G1|discriminate].
Qed.
Lemma build_acc : forall fuel w, acc_spec w (build fuel w).
Proof.
  induction fuel as [|fuel IH]; intros w om p path c o path' c' G; cbn [build].
  - destruct (pmem p path); intros H; injection H as <- <- <-; (split; [exact G|intros [E|E]; discriminate]).
  - destruct (pmem p path); [intros H; injection H as <- <- <-; (split; [exact G|intros [E|E]; discriminate])|].
    destruct (install w (build fuel w) (needs w p) (Some (path ++ [p])) c) as [[o1 p1] c1] eqn:E1.
    destruct (install_acc w _ (IH w) _ _ _ _ _ _ G E1) as [G1 A1].
    destruct o1.
    + cbv zeta. intros H. assert (Ap : Acc (needed_by w) p) by (constructor; intros q I; now apply A1).
      destruct (om && negb (meta_hook w p)); injection H as <- <- <-; (split; [exact G1|now intros _]).
    + intros H. injection H as <- <- <-. split; [exact G1|intros [E|E]; discriminate].
    + exfalso. exact (install_hook fuel w _ _ _ _ _ E1).
    + intros H. injection H as <- <- <-. split; [exact G1|intros [E|E]; discriminate].
Qed.

(** * A build comes to an end *)
Lemma nodup_snoc : forall (l : list pkg) p, NoDup l -> ~ In p l -> NoDup (l ++ [p]).
Proof.
  induction l as [|x l IH]; intros p Nd N; cbn [app].
  - constructor; [intros []|constructor].
  - inversion Nd; subst. constructor.
    + intros I. apply in_app_iff in I. destruct I as [I|[I|[]]]; [contradiction|subst; apply N; now left].
    + apply IH; [assumption|intros I; apply N; now right].
Qed.
Definition within (U path : list pkg) : Prop := NoDup path /\ incl path U.
Definition end_spec (U : list pkg) (n : nat) (bi : bool -> pkg -> list pkg -> store -> result) : Prop :=
  forall om p path c o path' c', In p U -> within U path -> length U <= n + length path -> bi om p path c = (o, path', c') ->
  o <> StillRunning /\ within U path' /\ length path <= length path'.
Definition opath (path : option (list pkg)) : list pkg := match path with Some l => l | None => [] end.
Lemma get_end : forall U n bi, end_spec U n bi -> forall m p path c o path' c', In p U -> within U (opath path) ->
  length U <= n + length (opath path) -> get_or_build bi m p path c = (o, path', c') ->
  o <> StillRunning /\ within U (opath path') /\ length (opath path) <= length (opath path').
Proof.
  intros U n bi S m p path c o path' c' Ip W L. unfold get_or_build.
  assert (Wn : within U []) by (split; [constructor|intros x []]).
  destruct (serves m (stored c p)).
  - intros H. injection H as <- <- <-. split; [discriminate|split; [exact W|lia]].
  - cbv zeta. old_store c. clearbody c0.
    fold (opath path).
    destruct (bi m p (opath path) c0) as [[o1 l1] c1] eqn:E1.
    destruct (S _ _ _ _ _ _ _ Ip W L E1) as (R1 & W1 & L1).
    set (path1 := match path with Some _ => Some l1 | None => None end).
    assert (X1 : within U (opath path1) /\ length (opath path) <= length (opath path1)).
    { destruct path; cbn [opath path1] in *; [split; assumption|split; [exact Wn|lia]]. }
    destruct X1 as [X1 Y1].
    destruct o1.
    + intros H. injection H as <- <- <-. split; [discriminate|split; assumption].
    + intros H. injection H as <- <- <-. split; [discriminate|split; assumption].
    + destruct m.
      * fold (opath path1). destruct (bi false p (opath path1) c1) as [[o2 l2] c2] eqn:E2.
        assert (L' : length U <= n + length (opath path1)) by lia.
        destruct (S _ _ _ _ _ _ _ Ip X1 L' E2) as (R2 & W2 & L2).
        set (path2 := match path1 with Some _ => Some l2 | None => None end).
        assert (X2 : within U (opath path2) /\ length (opath path) <= length (opath path2)).
        { destruct path; cbn [opath path1 path2] in *; [split; [assumption|lia]|split; [exact Wn|lia]]. }
        destruct X2 as [X2 Y2].
        destruct o2; intros H; injection H as <- <- <-; (split; [congruence|split; assumption]).
      * intros H. injection H as <- <- <-. split; [discriminate|split; assumption].
    + contradiction.
Qed.
Lemma requests_end : forall w U n bi, end_spec U n bi -> forall m l path c o path' c', incl l U -> within U (opath path) ->
  length U <= n + length (opath path) -> request_all w bi m l path c = (o, path', c') ->
  o <> StillRunning /\ within U (opath path') /\ length (opath path) <= length (opath path').
Proof.
  intros w U n bi S m l. induction l as [|p l IH]; intros path c o path' c' Il W L; cbn [request_all].
  - intros H. injection H as <- <- <-. split; [discriminate|split; [exact W|lia]].
  - assert (Il' : incl l U) by (intros x I; apply Il; now right).
    destruct (m && published w p); [now apply IH|].
    destruct (get_or_build bi m p path c) as [[o1 p1] c1] eqn:E1.
    destruct (get_end U n bi S _ _ _ _ _ _ _ (Il p (or_introl eq_refl)) W L E1) as (R1 & W1 & L1).
    destruct o1.
    + intros H. assert (L' : length U <= n + length (opath p1)) by lia.
      destruct (IH _ _ _ _ _ Il' W1 L' H) as (R2 & W2 & L2). split; [exact R2|split; [exact W2|lia]].
    + intros H. injection H as <- <- <-. split; [discriminate|split; assumption].
    + intros H. injection H as <- <- <-. split; [discriminate|split; assumption].
    + contradiction.
Qed.
Lemma nodup_room : forall (U path : list pkg) p, within U path -> In p U -> ~ In p path -> length path < length U.
Proof.
  intros U path p [Nd Inc] Ip N.
  assert (H : length (p :: path) <= length U).
  { apply NoDup_incl_length; [constructor; assumption|]. intros x [I|I]; [now subst|now apply Inc]. }
  exact H.
Qed.
Lemma build_end : forall w U, (forall p, In p U -> incl (needs w p) U) -> forall fuel, end_spec U fuel (build fuel w).
Proof.
  intros w U Cl. induction fuel as [|fuel IH]; intros om p path c o path' c' Ip W L; cbn [build].
  - destruct (pmem p path) eqn:Em.
    + intros H. injection H as <- <- <-. split; [discriminate|split; [exact W|lia]].
    + exfalso. assert (N : ~ In p path) by (intros I; apply pmem_iff in I; congruence).
      pose proof (nodup_room U path p W Ip N). lia.
  - destruct (pmem p path) eqn:Em.
    + intros H. injection H as <- <- <-. split; [discriminate|split; [exact W|lia]].
    + assert (N : ~ In p path) by (intros I; apply pmem_iff in I; congruence).
      assert (W1 : within U (opath (Some (path ++ [p])))).
      { cbn [opath]. destruct W as [Nd Inc]. split.
        - apply nodup_snoc; assumption.
        - intros x I. apply in_app_iff in I. destruct I as [I|[I|[]]]; [now apply Inc|now subst]. }
      assert (L1 : length U <= fuel + length (opath (Some (path ++ [p])))).
      { cbn [opath]. rewrite app_length. cbn [length]. lia. }
      unfold install.
      destruct (request_all w (build fuel w) true (needs w p) (Some (path ++ [p])) c) as [[o1 p1] c1] eqn:E1.
      destruct (requests_end w U fuel _ IH _ _ _ _ _ _ _ (Cl p Ip) W1 L1 E1) as (R1 & W2 & L2).
      cbn [opath] in L1, L2. rewrite app_length in L1, L2. cbn [length] in L1, L2.
      destruct o1.
      * assert (L3 : length U <= fuel + length (opath p1)) by lia.
        destruct (request_all w (build fuel w) false (needs w p) p1 c1) as [[o2 p2] c2] eqn:E2.
        destruct (requests_end w U fuel _ IH _ _ _ _ _ _ _ (Cl p Ip) W2 L3 E2) as (R2 & W3 & L4).
        destruct o2.
        -- cbv zeta. fold (opath p2). destruct (om && negb (meta_hook w p)); intros H; injection H as <- <- <-;
             (split; [discriminate|split; [exact W3|lia]]).
        -- fold (opath p2). intros H. injection H as <- <- <-. split; [discriminate|split; [exact W3|lia]].
        -- fold (opath p2). intros H. injection H as <- <- <-. split; [discriminate|split; [exact W3|lia]].
        -- contradiction.
      * fold (opath p1). intros H. injection H as <- <- <-. split; [discriminate|split; [exact W2|lia]].
      * fold (opath p1). intros H. injection H as <- <- <-. split; [discriminate|split; [exact W2|lia]].
      * contradiction.
Qed.

(** * When the repositories tell all dependencies, an error means a cycle *)
Definition tracked (chain path : list pkg) (c : store) : Prop := forall x, In x path -> In x chain \/ stored c x = Some WithWheel.
Definition keeps (c c' : store) : Prop := forall x, stored c x = Some WithWheel -> stored c' x = Some WithWheel.
Definition real_cycle (w : world) (q p : pkg) : Prop := clos_trans _ (needed_by w) q q /\ clos_refl_trans _ (needed_by w) q p.
Definition pub_spec (w : world) (bi : bool -> pkg -> list pkg -> store -> result) : Prop :=
  forall p path c chain o path' c', tracked chain path c -> (forall x, In x chain -> clos_trans _ (needed_by w) p x) ->
  stored c p <> Some WithWheel -> bi false p path c = (o, path', c') ->
  (o = Built -> tracked (p :: chain) path' c' /\ keeps c c') /\ (forall q, o = CycleError q -> real_cycle w q p).
Lemma serves_false : forall e, serves false e = true <-> e = Some WithWheel.
Proof. intros [[|]|]; cbn [serves]; split; intros H; try discriminate; reflexivity. Qed.
Lemma get_pub : forall w bi, pub_spec w bi -> forall p path c chain o path' c', tracked chain path c ->
  (forall x, In x chain -> clos_trans _ (needed_by w) p x) -> get_or_build bi false p (Some path) c = (o, path', c') ->
  (o = Built -> exists l, path' = Some l /\ tracked chain l c' /\ keeps c c' /\ stored c' p = Some WithWheel) /\
  (forall q, o = CycleError q -> real_cycle w q p).
Proof.
  intros w bi S p path c chain o path' c' T Ch. unfold get_or_build.
  destruct (serves false (stored c p)) eqn:Es.
  - intros H. injection H as <- <- <-. apply serves_false in Es. split; [|discriminate].
    intros _. exists path. split; [reflexivity|split; [exact T|split; [now intros x|exact Es]]].
  - assert (Nw : stored c p <> Some WithWheel) by (intros E; apply serves_false in E; congruence).
    cbv zeta. old_store c.
    assert (K0 : keeps c c0).
    { intros x E. unfold c0. rewrite stored_filter; [exact E|]. intros ->. contradiction. }
    assert (T0 : tracked chain path c0) by (intros x I; destruct (T x I) as [J|J]; [now left|right; now apply K0]).
    assert (N0 : stored c0 p <> Some WithWheel).
    { unfold c0. intros E. apply stored_in, filter_In in E. destruct E as [_ E]. cbn [fst] in E. rewrite Nat.eqb_refl in E. discriminate. }
    clearbody c0.
    destruct (bi false p path c0) as [[o1 l1] c1] eqn:E1.
    destruct (S _ _ _ _ _ _ _ T0 Ch N0 E1) as [B1 C1].
    destruct o1; intros H; injection H as <- <- <-.
    + split; [|discriminate]. intros _. destruct (B1 eq_refl) as [T1 K1].
      exists l1. split; [reflexivity|].
      assert (K2 : keeps c1 ((p, WithWheel) :: c1)).
      { intros x E. cbn [stored]. destruct (x =? p); [reflexivity|exact E]. }
      split; [|split; [intros x E; now apply K2, K1, K0|cbn [stored]; now rewrite Nat.eqb_refl]].
      intros x I. destruct (T1 x I) as [[J|J]|J]; [subst; right; cbn [stored]; now rewrite Nat.eqb_refl|now left|right; now apply K2].
    + split; [discriminate|]. exact C1.
    + split; [discriminate|discriminate].
    + split; [discriminate|discriminate].
Qed.
Lemma requests_pub : forall w bi, pub_spec w bi -> forall l path c chain o path' c', tracked chain path c ->
  (forall p x, In p l -> In x chain -> clos_trans _ (needed_by w) p x) -> request_all w bi false l (Some path) c = (o, path', c') ->
  (o = Built -> exists l', path' = Some l' /\ tracked chain l' c' /\ keeps c c' /\ forall q, In q l -> stored c' q = Some WithWheel) /\
  (forall q, o = CycleError q -> exists p, In p l /\ real_cycle w q p).
Proof.
  intros w bi S l. induction l as [|p l IH]; intros path c chain o path' c' T Ch; cbn [request_all].
  - intros H. injection H as <- <- <-. split; [|discriminate]. intros _. exists path.
    split; [reflexivity|split; [exact T|split; [now intros x|intros q []]]].
  - cbn [andb]. destruct (get_or_build bi false p (Some path) c) as [[o1 p1] c1] eqn:E1.
    destruct (get_pub w bi S _ _ _ _ _ _ _ T (fun x => Ch p x (or_introl eq_refl)) E1) as [B1 C1].
    destruct o1.
    + destruct (B1 eq_refl) as (l1 & -> & T1 & K1 & P1). intros H.
      destruct (IH _ _ _ _ _ _ T1 (fun q x I => Ch q x (or_intror I)) H) as [B2 C2]. split.
      * intros Eo. destruct (B2 Eo) as (l2 & E2 & T2 & K2 & P2). exists l2. split; [exact E2|]. split; [exact T2|].
        split; [intros x E; now apply K2, K1|]. intros q [I|I]; [subst; now apply K2|now apply P2].
      * intros q Eo. destruct (C2 q Eo) as (r & I & Rc). exists r. split; [now right|exact Rc].
    + intros H. injection H as <- <- <-. split; [discriminate|]. intros q Eo. exists p. split; [now left|now apply C1].
    + intros H. injection H as <- <- <-. split; [discriminate|discriminate].
    + intros H. injection H as <- <- <-. split; [discriminate|discriminate].
Qed.
Lemma requests_skip : forall w bi l path c, (forall p, published w p = true) -> request_all w bi true l path c = (Built, path, c).
Proof. intros w bi l path c P. induction l as [|p l IH]; cbn [request_all]; [reflexivity|]. rewrite P. cbn [andb]. exact IH. Qed.
Lemma build_pub : forall w, (forall p, published w p = true) -> forall fuel, pub_spec w (build fuel w).
Proof.
  intros w P. induction fuel as [|fuel IH]; intros p path c chain o path' c' T Ch Nw; cbn [build].
  - destruct (pmem p path) eqn:Em; intros H; injection H as <- <- <-; (split; [discriminate|]).
    + intros q E. injection E as <-. apply pmem_iff in Em. destruct (T p Em) as [J|J]; [|contradiction].
      split; [exact (Ch p J)|apply rt_refl].
    + discriminate.
  - destruct (pmem p path) eqn:Em.
    + intros H; injection H as <- <- <-. split; [discriminate|].
      intros q E. injection E as <-. apply pmem_iff in Em. destruct (T p Em) as [J|J]; [|contradiction].
      split; [exact (Ch p J)|apply rt_refl].
    + unfold install. rewrite requests_skip by exact P.
      assert (T1 : tracked (p :: chain) (path ++ [p]) c).
      { intros x I. apply in_app_iff in I. destruct I as [I|[I|[]]]; [|left; now left].
        destruct (T x I) as [J|J]; [left; now right|now right]. }
      assert (Ch1 : forall r x, In r (needs w p) -> In x (p :: chain) -> clos_trans _ (needed_by w) r x).
      { intros r x I [J|J]; [subst; now apply t_step|]. apply t_trans with p; [now apply t_step|now apply Ch]. }
      destruct (request_all w (build fuel w) false (needs w p) (Some (path ++ [p])) c) as [[o1 p1] c1] eqn:E1.
      destruct (requests_pub w _ IH _ _ _ _ _ _ _ T1 Ch1 E1) as [B1 C1].
      destruct o1.
      * cbn [andb]. intros H. injection H as <- <- <-. split; [|discriminate]. intros _.
        destruct (B1 eq_refl) as (l & -> & T2 & K2 & _). split; assumption.
      * intros H. injection H as <- <- <-. split; [discriminate|]. intros q Eo.
        destruct (C1 q Eo) as (r & I & [R1 R2]). split; [exact R1|]. apply rt_trans with r; [exact R2|apply rt_step; exact I].
      * intros H. injection H as <- <- <-. split; [discriminate|discriminate].
      * intros H. injection H as <- <- <-. split; [discriminate|discriminate].
Qed.

(** * Requests for a wheel *)
Lemma acc_no_cycle : forall A (R : A -> A -> Prop) x, Acc R x -> ~ clos_trans _ R x x.
Proof.
  intros A R x Ax. apply Acc_clos_trans in Ax. induction Ax as [x _ IH]. intros C. exact (IH x C C).
Qed.
Lemma acc_down : forall A (R : A -> A -> Prop) x y, Acc R y -> clos_refl_trans _ R x y -> Acc R x.
Proof. intros A R x y Ay C. revert Ay. induction C as [x y H| x| x y z C1 IH1 C2 IH2]; intros Ay; [exact (Acc_inv Ay H)|exact Ay|auto]. Qed.
Lemma wheel_sound : forall w fuel p c path c', good w c -> wheel_of fuel w p c = (Built, path, c') -> Acc (needed_by w) p.
Proof. intros w fuel p c path c' G H. exact (proj2 (get_acc w _ (build_acc fuel w) _ _ _ _ _ _ _ G H) eq_refl). Qed.
Lemma wheel_ends : forall w U p c fuel, (forall p, In p U -> incl (needs w p) U) -> In p U -> length U <= fuel ->
  let o := fst (fst (wheel_of fuel w p c)) in o = Built \/ exists q, o = CycleError q.
Proof.
  intros w U p c fuel Cl Ip L. cbv zeta.
  destruct (wheel_of fuel w p c) as [[o path] c'] eqn:E. cbn [fst].
  assert (W : within U (opath None)) by (split; [constructor|intros x []]).
  assert (L' : length U <= fuel + length (opath None)) by (cbn [opath length]; lia).
  destruct (get_end U fuel _ (build_end w U Cl fuel) _ _ _ _ _ _ _ Ip W L' E) as [R _].
  destruct o as [|q| |]; [now left|right; now exists q| |contradiction].
  exfalso. revert E. apply get_hook. intros; apply build_hook.
Qed.
Lemma wheel_cycle_real : forall w fuel p path c' q, (forall p, published w p = true) ->
  wheel_of fuel w p [] = (CycleError q, path, c') -> real_cycle w q p.
Proof.
  intros w fuel p path c' q P. unfold wheel_of, get_or_build. cbn [stored serves filter]. cbv zeta iota beta.
  match goal with |- context [build fuel w false p ?a ?b] => destruct (build fuel w false p a b) as [[o l] c1] eqn:E end.
  assert (T : tracked [] [] []) by (intros x []).
  destruct (build_pub w P fuel p [] [] [] _ _ _ T (fun x (I : In x []) => match I with end) ltac:(discriminate) E) as [_ C].
  destruct o as [|q'| |]; cbv iota beta; intros H; [discriminate| |discriminate|discriminate]. assert (Eq : q' = q) by congruence. subst q'. now apply C.
Qed.

(** * The files of the cache *)
Lemma base_eqb_iff : forall a b, base_eqb a b = true <-> a = b.
Proof.
  intros [[a1 a2] a3] [[b1 b2] b3]. unfold base_eqb. rewrite !andb_true_iff. rewrite !str_eqb_eq. split.
  - intros [[-> ->] ->]. reflexivity.
  - intros E. injection E as -> -> ->. now split.
Qed.
Lemma same_file_iff : forall b d n f, same_file b d n f = true <-> f_base f = b /\ f_digest f = d /\ f_name f = n.
Proof. intros b d n f. unfold same_file. rewrite !andb_true_iff, base_eqb_iff, !str_eqb_eq. tauto. Qed.
Lemma in_dir_iff : forall b d f, in_dir b d f = true <-> f_base f = b /\ f_digest f = d.
Proof. intros b d f. unfold in_dir. rewrite !andb_true_iff, base_eqb_iff, !str_eqb_eq. tauto. Qed.

Definition is_prefix (a b : str) : Prop := exists t, b = a ++ t.
(** [text] as METADATA, or [content] as the wheel [name], is what the build of [r] gave *)
Definition gave_meta (r : req) (text : str) : Prop := r_out r = MetaDir (Some text) \/ exists n c, r_out r = WheelFile n c text.
Definition gave_wheel (r : req) (name content : str) : Prop := exists text, r_out r = WheelFile name content text.
Definition from_build (whole : bool) (r : req) (f : file) : Prop :=
  req_base r = Ok (f_base f) /\ r_digest r = f_digest f /\
  ((f_name f = METADATA /\ exists t, gave_meta r t /\ is_prefix (f_content f) t /\ (whole = true -> f_content f = t)) \/
   exists t, gave_wheel r (f_name f) t /\ is_prefix (f_content f) t /\ (whole = true -> f_content f = t)).
(** the files that [r] copies come into being whole *)
Definition whole_copies (r : req) : Prop :=
  (forall t, gave_meta r t -> length t <= r_torn r) /\ (forall n t, gave_wheel r n t -> length t <= r_torn r).
Definition wrote (s : step) (f : file) : Prop := match s with Unlink _ _ _ => False | Write b d n c => f = File b d n c end.
Lemma apply_in : forall fs s f, In f (apply fs s) -> In f fs \/ wrote s f.
Proof.
  intros fs [b d n|b d n c] f; cbn [apply wrote].
  - intros I. apply filter_In in I. left. apply I.
  - intros [I|I]; [right; now subst|]. apply filter_In in I. left. apply I.
Qed.
Lemma execute_in : forall l fs f, In f (execute fs l) -> In f fs \/ exists s, In s l /\ wrote s f.
Proof.
  induction l as [|s l IH]; intros fs f; unfold execute; cbn [fold_left].
  - intros I. now left.
  - intros I. destruct (IH _ _ I) as [J|(s' & J & W)].
    + destruct (apply_in _ _ _ J) as [K|K]; [now left|right; exists s; split; [now left|exact K]].
    + right. exists s'. split; [now right|exact W].
Qed.
Lemma firstn_prefix : forall n (s : str), is_prefix (firstn n s) s.
Proof. intros n s. exists (skipn n s). symmetry. apply firstn_skipn. Qed.
Lemma prefix_refl : forall s : str, is_prefix s s.
Proof. intros s. exists []. now rewrite app_nil_r. Qed.
Lemma get_writes : forall fs r l rep whole, (whole = true -> whole_copies r) -> get fs r = Ok (l, rep) ->
  forall s f, In s l -> wrote s f -> from_build whole r f.
Proof.
  intros fs r l rep whole Hw G s f I W. unfold get in G. destruct (req_base r) as [b|] eqn:Eb; [|discriminate]. cbn [bind] in G.
  destruct (cached fs b (r_digest r) (r_meta r)); [injection G as <- _; destruct I|].
  set (clear := map _ _) in G.
  assert (Cl : ~ In s clear).
  { intros J. unfold clear in J. apply in_map_iff in J. destruct J as (g & <- & _). exact W. }
  assert (Cm : forall t, gave_meta r t -> In s (copy_steps (r_torn r) b (r_digest r) METADATA t) -> from_build whole r f).
  { intros t Gt J. unfold copy_steps in J.
    assert (X : forall c, wrote (Write b (r_digest r) METADATA c) f -> is_prefix c t -> (whole = true -> c = t) -> from_build whole r f).
    { intros c Wc Pc Ec. cbn [wrote] in Wc. subst f. split; [exact Eb|split; [reflexivity|left; split; [reflexivity|]]].
      exists t. split; [exact Gt|split; assumption]. }
    destruct J as [J|[J|[]]]; subst s.
    - apply (X _ W); [apply firstn_prefix|]. intros E. destruct (Hw E) as [H1 _]. apply firstn_all2. now apply H1.
    - apply (X _ W); [apply prefix_refl|reflexivity]. }
  assert (Cw : forall n t, gave_wheel r n t -> In s (copy_steps (r_torn r) b (r_digest r) n t) -> from_build whole r f).
  { intros n t Gt J. unfold copy_steps in J.
    assert (X : forall c, wrote (Write b (r_digest r) n c) f -> is_prefix c t -> (whole = true -> c = t) -> from_build whole r f).
    { intros c Wc Pc Ec. cbn [wrote] in Wc. subst f. split; [exact Eb|split; [reflexivity|right]].
      exists t. split; [exact Gt|split; assumption]. }
    destruct J as [J|[J|[]]]; subst s.
    - apply (X _ W); [apply firstn_prefix|]. intros E. destruct (Hw E) as [_ H1]. apply firstn_all2. apply (H1 n). exact Gt.
    - apply (X _ W); [apply prefix_refl|reflexivity]. }
  destruct (r_out r) as [|[t|]|n c t] eqn:Eo.
  - injection G as <- _. contradiction.
  - injection G as <- _. apply in_app_iff in I. destruct I as [I|I]; [contradiction|].
    apply (Cm t); [now left|exact I].
  - injection G as <- _. contradiction.
  - assert (El : l = clear ++ copy_steps (r_torn r) b (r_digest r) METADATA t ++ copy_steps (r_torn r) b (r_digest r) n c)
      by (injection G as E1 _; symmetry; exact E1).
    rewrite El in I. apply in_app_iff in I. destruct I as [I|I]; [contradiction|].
    apply in_app_iff in I. destruct I as [I|I].
    + apply (Cm t); [right; now exists n, c|exact I].
    + apply (Cw n c); [now exists t|exact I].
Qed.
Lemma history_from : forall whole ops f, (whole = true -> forall r k, In (r, k) ops -> whole_copies r) ->
  In f (history ops) -> exists r k, In (r, k) ops /\ from_build whole r f.
Proof.
  intros whole ops f Hw. unfold history.
  assert (G : forall fs, In f (fold_left after ops fs) -> In f fs \/ exists r k, In (r, k) ops /\ from_build whole r f).
  { revert Hw. induction ops as [|[r k] ops IH]; intros Hw fs; cbn [fold_left]; [now left|]. intros I.
    destruct (IH (fun E r' k' J => Hw E r' k' (or_intror J)) _ I) as [J|(r' & k' & J & F)]; [|right; exists r', k'; split; [now right|exact F]].
    unfold after in J. cbn [fst snd] in J. destruct (get fs r) as [[l rep]|] eqn:Eg; [|now left].
    assert (J' : In f fs \/ exists s, In s l /\ wrote s f).
    { destruct k as [k|]; [|now apply execute_in].
      destruct (execute_in _ _ _ J) as [K|(s & K & W)]; [now left|right; exists s; split; [|exact W]].
      rewrite <- (firstn_skipn k l). apply in_app_iff. now left. }
    destruct J' as [K|(s & K & W)]; [now left|]. right. exists r, k. split; [now left|].
    refine (get_writes fs r l rep whole _ Eg s f K W). intros E. exact (Hw E r k (or_introl eq_refl)). }
  intros I. destruct (G [] I) as [[]|H]. exact H.
Qed.
(** the reply is what the build of [r] gave, up to a missing end when [whole] is false *)
Definition reply_of (whole : bool) (r : req) (rep : reply) : Prop :=
  match rep with
  | Metadata t => exists t', gave_meta r t' /\ is_prefix t t' /\ (whole = true -> t = t')
  | WheelPath n c => exists c', gave_wheel r n c' /\ is_prefix c c' /\ (whole = true -> c = c')
  end.
Lemma get_reply : forall whole ops r l rep, (whole = true -> forall r k, In (r, k) ops -> whole_copies r) ->
  (forall r k n c, In (r, k) ops -> gave_wheel r n c -> is_wheel_name n = true) ->
  get (history ops) r = Ok (l, Ok rep) ->
  exists r', (r' = r \/ exists k, In (r', k) ops) /\ req_base r' = req_base r /\ r_digest r' = r_digest r /\ reply_of whole r' rep.
Proof.
  intros whole ops r l rep Hw Hn G. unfold get in G. destruct (req_base r) as [b|] eqn:Eb; [|discriminate]. cbn [bind] in G.
  destruct (cached (history ops) b (r_digest r) (r_meta r)) as [rep'|] eqn:Ec.
  - injection G as _ <-. unfold cached, meta_text in Ec.
    destruct (find (same_file b (r_digest r) METADATA) (history ops)) as [f|] eqn:Ef; [|discriminate].
    apply find_some in Ef. destruct Ef as [If Sf]. apply same_file_iff in Sf. destruct Sf as (B1 & D1 & N1).
    destruct (r_meta r).
    + injection Ec as <-. destruct (history_from whole ops f Hw If) as (r' & k & I & F).
      destruct F as (Fb & Fd & Fc). exists r'. split; [right; now exists k|]. split; [now rewrite Fb, B1|]. split; [now rewrite Fd|].
      destruct Fc as [(_ & t & Gt & Pt & Et)|(t & Gt & _)].
      * cbn [reply_of]. exists t. split; [exact Gt|split; assumption].
      * exfalso. pose proof (Hn r' k _ _ I Gt) as X. rewrite N1 in X. discriminate.
    + destruct (filter _ (history ops)) as [|g [|g' gs]] eqn:Eg; try discriminate. injection Ec as <-.
      assert (Ig : In g [g]) by now left. rewrite <- Eg in Ig. apply filter_In in Ig. destruct Ig as [Ig Sg].
      apply andb_true_iff in Sg. destruct Sg as [Sg Wg]. apply in_dir_iff in Sg. destruct Sg as [B2 D2].
      destruct (history_from whole ops g Hw Ig) as (r' & k & I & Fb & Fd & Fc).
      exists r'. split; [right; now exists k|]. split; [now rewrite Fb, B2|]. split; [now rewrite Fd|].
      destruct Fc as [(Nm & _)|(t & Gt & Pt & Et)].
      * rewrite Nm in Wg. discriminate.
      * cbn [reply_of]. exists t. split; [exact Gt|split; assumption].
  - exists r. split; [now left|]. split; [exact Eb|]. split; [reflexivity|].
    destruct (r_out r) as [|[t|]|n c t] eqn:Eo; try discriminate; injection G as _ <-; cbn [reply_of].
    + exists t. split; [now left|split; [apply prefix_refl|reflexivity]].
    + exists c. split; [now exists t|split; [apply prefix_refl|reflexivity]].
Qed.

(** * A request that ended is answered from the cache *)
Definition unlink_of (f : file) : step := Unlink (f_base f) (f_digest f) (f_name f).
Lemma execute_app : forall fs a b, execute fs (a ++ b) = execute (execute fs a) b.
Proof. intros. unfold execute. apply fold_left_app. Qed.
Lemma unlinks_in : forall l fs f, In f (execute fs (map unlink_of l)) ->
  In f fs /\ forall g, In g l -> ~ (f_base f = f_base g /\ f_digest f = f_digest g /\ f_name f = f_name g).
Proof.
  induction l as [|g l IH]; intros fs f; unfold execute; cbn [map fold_left].
  - intros I. split; [exact I|intros g []].
  - intros I. destruct (IH _ _ I) as [J K]. cbn [unlink_of apply] in J. apply filter_In in J. destruct J as [J1 J2].
    split; [exact J1|]. intros h [E|Ih]; [subst h|now apply K].
    intros E. apply same_file_iff in E. rewrite E in J2. discriminate.
Qed.
Lemma cleared : forall b fs f, In f (execute fs (map (fun f => Unlink (f_base f) (f_digest f) (f_name f)) (filter (fun f => base_eqb (f_base f) b) fs))) ->
  f_base f <> b.
Proof.
  intros b fs f I Eb. change (In f (execute fs (map unlink_of (filter (fun f => base_eqb (f_base f) b) fs)))) in I.
  apply unlinks_in in I. destruct I as [If K]. apply (K f); [|now repeat split].
  apply filter_In. split; [exact If|]. now apply base_eqb_iff.
Qed.
Lemma copied : forall fs torn b d n c, execute fs (copy_steps torn b d n c) = File b d n c :: filter (fun f => negb (same_file b d n f)) fs.
Proof.
  intros. unfold copy_steps, execute. cbn [fold_left apply filter].
  unfold same_file at 1. cbn [f_base f_digest f_name].
  replace (base_eqb b b) with true by (symmetry; now apply base_eqb_iff). rewrite !str_eqb_refl. cbn [andb negb].
  f_equal. induction fs as [|f fs IH]; cbn [filter]; [reflexivity|].
  destruct (same_file b d n f) eqn:E; cbn [negb filter]; [exact IH|]. rewrite E. cbn [negb]. now rewrite IH.
Qed.
Lemma none_left : forall (g : file -> bool) l, (forall f, In f l -> g f = false) -> filter g l = [].
Proof.
  intros g l H. induction l as [|f l IH]; cbn [filter]; [reflexivity|].
  rewrite (H f) by now left. apply IH. intros x I. apply H. now right.
Qed.
Lemma get_again : forall fs r l rep, get fs r = Ok (l, Ok rep) -> (r_meta r = true \/ forall t, r_out r <> MetaDir t) ->
  (forall n c, gave_wheel r n c -> is_wheel_name n = true) ->
  get (after fs (r, None)) r = Ok ([], Ok (match r_meta r, rep, r_out r with true, WheelPath _ _, WheelFile _ _ t => Metadata t | _, _, _ => rep end)).
Proof.
  intros fs r l rep G Hm Hn. unfold after. cbn [fst snd]. rewrite G. unfold get in G |- *.
  destruct (req_base r) as [b|] eqn:Eb; [|discriminate]. cbn [bind] in G |- *.
  destruct (cached fs b (r_digest r) (r_meta r)) as [rep'|] eqn:Ec.
  - injection G as <- <-. cbn [execute fold_left]. unfold execute. cbn [fold_left]. rewrite Ec. f_equal. f_equal. f_equal.
    unfold cached in Ec. destruct (meta_text fs b (r_digest r)); [|discriminate]. destruct (r_meta r); [|reflexivity].
    injection Ec as <-. reflexivity.
  - set (clear := map _ _) in G.
    assert (Cl : forall f, In f (execute fs clear) -> f_base f <> b) by (intros f I; exact (cleared b fs f I)).
    clearbody clear. set (d := r_digest r) in *.
    assert (Nf : forall n f, In f (execute fs clear) -> same_file b d n f = false).
    { intros n f I. destruct (same_file b d n f) eqn:E; [|reflexivity]. apply same_file_iff in E. destruct E as [E _].
      exfalso. exact (Cl f I E). }
    assert (Nd : forall n, filter (fun f => negb (same_file b d n f)) (execute fs clear) = execute fs clear).
    { intros n. revert Nf. generalize (execute fs clear). induction f as [|f fl IH]; intros Nf; cbn [filter]; [reflexivity|].
      rewrite (Nf n f) by now left. cbn [negb]. f_equal. apply IH. intros m g I. apply Nf. now right. }
    assert (Sm : forall n c, same_file b d n (File b d n c) = true) by (intros; apply same_file_iff; now repeat split).
    destruct (r_out r) as [|[t|]|n c t] eqn:Eo; try discriminate.
    + injection G as <- <-. destruct Hm as [Hm|Hm]; [|exfalso; exact (Hm _ eq_refl)]. rewrite Hm.
      rewrite execute_app, copied, Nd. unfold cached, meta_text. cbn [find]. rewrite Sm. cbn [f_content]. reflexivity.
    + assert (El : l = clear ++ copy_steps (r_torn r) b d METADATA t ++ copy_steps (r_torn r) b d n c)
        by (injection G as E1 _; symmetry; exact E1).
      injection G as _ <-. rewrite El. rewrite !execute_app, !copied, Nd. cbn [filter].
      assert (Wn : is_wheel_name n = true) by (apply (Hn n c); now exists t).
      assert (Mn : str_eqb METADATA n = false).
      { destruct (str_eqb METADATA n) eqn:E; [|reflexivity]. apply str_eqb_eq in E. subst n. discriminate. }
      unfold same_file at 1. cbn [f_name]. rewrite Mn, andb_false_r. cbn [negb]. rewrite Nd.
      unfold cached, meta_text. cbn [find]. unfold same_file at 1. cbn [f_name].
      replace (str_eqb n METADATA) with false by (rewrite str_eqb_sym; congruence). rewrite andb_false_r, Sm. cbn [f_content].
      destruct (r_meta r) eqn:Em; [reflexivity|].
      cbn [filter f_name]. replace (in_dir b d (File b d n c)) with true by (symmetry; now apply in_dir_iff).
      rewrite Wn. replace (is_wheel_name METADATA) with false by reflexivity. rewrite andb_false_r. cbn [andb].
      rewrite none_left; [reflexivity|]. intros f I. unfold in_dir.
      destruct (base_eqb (f_base f) b) eqn:E; [|reflexivity]. apply base_eqb_iff in E. exfalso. exact (Cl f I E).
Qed.
