(** Proofs about the extraction of archives *)
From Coq Require Import String Ascii List Bool NArith Arith Lia.
From Verif Require Import Base BaseFacts ArchiveModel.
Import ListNotations.
Open Scope string_scope.
Open Scope nat_scope.
Open Scope list_scope.
Open Scope bool_scope.

(** a component that names an entry of the directory it is looked up in *)
Definition plain (c : str) : Prop := here c = false /\ up c = false.
(** the places from the root to [t] are directories, not links *)
Definition solid (d : disk) (t : place) : Prop := forall a b, t = a ++ b -> b <> [] -> at_ d b = Some Dir.
(** no links at [t] or below it *)
Definition unlinked (d : disk) (t : place) : Prop := forall q x y, at_ d (q ++ t) <> Some (Link x y).
Definition outside (t p : place) : Prop := forall q, p <> q ++ t.
Definition unchanged (t : place) (d d' : disk) : Prop := forall p, outside t p -> at_ d' p = at_ d p.
Definition good (d : disk) (t : place) : Prop := solid d t /\ unlinked d t.

Lemma place_eqb_spec : forall a b, place_eqb a b = true <-> a = b.
Proof.
  unfold place_eqb. induction a as [|x a IH]; destruct b as [|y b]; cbn; split; intros H; try discriminate; try reflexivity.
  - apply andb_true_iff in H. destruct H as [H1 H2]. apply str_eqb_eq in H1. apply IH in H2. congruence.
  - injection H as <- <-. apply andb_true_iff. split; [apply str_eqb_refl|apply IH; reflexivity].
Qed.
Lemma place_eqb_refl : forall a, place_eqb a a = true.
Proof. intros a. apply place_eqb_spec. reflexivity. Qed.
Lemma at_filter : forall d p q, p <> q -> at_ (filter (fun e => negb (place_eqb (fst e) p)) d) q = at_ d q.
Proof.
  induction d as [|[r n] d IH]; intros p q N; cbn; [reflexivity|].
  destruct (place_eqb r p) eqn:E; cbn.
  - apply place_eqb_spec in E. subst r. rewrite IH by exact N.
    destruct (place_eqb q p) eqn:E; [apply place_eqb_spec in E; congruence|reflexivity].
  - destruct (place_eqb q r); [reflexivity|apply IH; exact N].
Qed.
Lemma at_put_same : forall d p n, at_ (put d p n) p = Some n.
Proof. intros d p n. unfold put. cbn. rewrite place_eqb_refl. reflexivity. Qed.
Lemma at_put_other : forall d p q n, p <> q -> at_ (put d p n) q = at_ d q.
Proof.
  intros d p q n N. unfold put. cbn. destruct (place_eqb q p) eqn:E; [apply place_eqb_spec in E; congruence|].
  apply at_filter. exact N.
Qed.
Lemma place_dec : forall a b : place, {a = b} + {a <> b}.
Proof. intros a b. destruct (place_eqb a b) eqn:E; [left; apply place_eqb_spec; exact E|right; intros H; apply place_eqb_spec in H; congruence]. Qed.

Lemma walk_eq : forall links d cur comps, walk links d cur comps =
    match comps with
    | [] => Got cur
    | c :: r =>
        if negb (is_dir d cur) then Raised NotADirectory
        else if here c then walk links d cur r
        else if up c then walk links d (tl cur) r
        else match at_ d (c :: cur) with
             | None => match r with [] => Got (c :: cur) | _ => Raised NotFound end
             | Some (Link absolute t) =>
                 match links with
                 | 0 => Raised TooManyLinks
                 | S links => walk links d (if absolute then [] else cur) (t ++ r)
                 end
             | Some _ => walk links d (c :: cur) r
             end
    end.
Proof. destruct links, comps; reflexivity. Qed.

Lemma solid_suffix : forall d a b, solid d (a ++ b) -> solid d b.
Proof. intros d a b S x y E N. apply (S (a ++ x) y); [rewrite E; apply app_assoc|exact N]. Qed.
Lemma solid_dir : forall d t, solid d t -> is_dir d t = true.
Proof. intros d t S. destruct t as [|c t]; [reflexivity|]. cbn. rewrite (S [] (c :: t) eq_refl ltac:(discriminate)). reflexivity. Qed.
Lemma solid_cons : forall d c t, solid d t -> at_ d (c :: t) = Some Dir -> solid d (c :: t).
Proof.
  intros d c t S A a b E N. destruct a as [|x a]; cbn in E; [subst b; exact A|].
  injection E as -> ->. apply (S a b eq_refl N).
Qed.

(** following a path through directories *)
Lemma walk_dirs : forall links d l cur cs, Forall plain l -> solid d (rev l ++ cur) ->
  walk links d cur (l ++ cs) = walk links d (rev l ++ cur) cs.
Proof.
  intros links d. induction l as [|c l IH]; intros cur cs P S; [reflexivity|].
  inversion P as [|? ? [Pc Pc'] Pl]; subst. cbn [rev] in *. rewrite <- app_assoc in *. cbn [app] in *.
  rewrite walk_eq. rewrite (solid_dir d cur) by (apply (solid_suffix d (rev l ++ [c])); rewrite <- app_assoc; exact S). cbn [negb].
  rewrite Pc, Pc'. rewrite (S (rev l) (c :: cur) eq_refl) by discriminate.
  apply IH; assumption.
Qed.
Lemma locate_dirs : forall d t cs, Forall plain t -> solid d t -> locate d (rev t ++ cs) = walk max_links d t cs.
Proof.
  intros d t cs P S. unfold locate.
  rewrite (walk_dirs max_links d (rev t) [] cs); rewrite ?rev_involutive, ?app_nil_r; auto.
  apply Forall_rev. exact P.
Qed.
Lemma locate_solid : forall d t, Forall plain t -> solid d t -> locate d (rev t) = Got t.
Proof. intros d t P S. rewrite <- (app_nil_r (rev t)). rewrite locate_dirs by assumption. rewrite walk_eq. reflexivity. Qed.
Lemma exists_solid : forall d t, Forall plain t -> solid d t -> exists_at d (rev t) = true.
Proof. intros d t P S. unfold exists_at. rewrite locate_solid by assumption. rewrite solid_dir by exact S. reflexivity. Qed.

(** following a path below a place without links *)
Lemma walk_below : forall links d t cs q p, unlinked d t -> Forall (fun c => up c = false) cs ->
  walk links d (q ++ t) cs = Got p -> p = rev (filter (fun c => negb (here c)) cs) ++ q ++ t.
Proof.
  intros links d t. induction cs as [|c cs IH]; intros q p U N W; rewrite walk_eq in W; [injection W as <-; reflexivity|].
  inversion N as [|? ? Nc Ncs]; subst.
  destruct (negb (is_dir d (q ++ t))); [discriminate W|]. cbn [filter].
  destruct (here c); cbn [negb]; [apply (IH q p U Ncs W)|]. rewrite Nc in W. cbn [rev]. rewrite <- app_assoc. cbn [app].
  destruct (at_ d (c :: q ++ t)) as [n|] eqn:A.
  - destruct n as [content| |x y]; [exact (IH (c :: q) p U Ncs W)|exact (IH (c :: q) p U Ncs W)|].
    exfalso. exact (U (c :: q) x y A).
  - destruct cs; [injection W as <-; reflexivity|discriminate W].
Qed.
Lemma filter_rev : forall (f : str -> bool) l, filter f (rev l) = rev (filter f l).
Proof.
  intros f. induction l as [|c l IH]; [reflexivity|]. cbn [rev filter]. rewrite filter_app, IH. cbn [filter].
  destruct (f c); [reflexivity|apply app_nil_r].
Qed.
Lemma locate_below : forall d t x p, Forall plain t -> good d t -> Forall (fun c => up c = false) x ->
  locate d (rev (x ++ t)) = Got p -> p = filter (fun c => negb (here c)) x ++ t.
Proof.
  intros d t x p P [S U] N L. rewrite rev_app_distr, locate_dirs in L by assumption.
  apply (walk_below max_links d t (rev x) [] p U) in L; [|apply Forall_rev; exact N].
  rewrite L. cbn [app]. rewrite filter_rev, rev_involutive. reflexivity.
Qed.

(** putting a file or a directory below [t] *)
Definition no_link (n : node) : Prop := match n with Link _ _ => False | _ => True end.
Lemma put_good : forall d t x n, good d t -> x <> [] -> no_link n -> good (put d (x ++ t) n) t /\ unchanged t d (put d (x ++ t) n).
Proof.
  intros d t x n [S U] Nx Nn. split; [split|].
  - intros a b E Nb. rewrite at_put_other; [exact (S a b E Nb)|]. intros E'. subst b.
    apply (f_equal (@length str)) in E. rewrite !app_length in E. destruct x; [congruence|cbn in E; lia].
  - intros q y z. destruct (place_dec (x ++ t) (q ++ t)) as [E|E].
    + rewrite <- E, at_put_same. intros H. injection H as ->. exact Nn.
    + rewrite at_put_other by exact E. apply U.
  - intros p O. apply at_put_other. intros E. exact (O x (eq_sym E)).
Qed.
Lemma unchanged_refl : forall t d, unchanged t d d.
Proof. intros t d p _. reflexivity. Qed.
Lemma unchanged_trans : forall t a b c, unchanged t a b -> unchanged t b c -> unchanged t a c.
Proof. intros t a b c H K p O. rewrite K, H by exact O. reflexivity. Qed.

Lemma mkdir_good : forall d t x d' e, Forall plain t -> good d t -> Forall (fun c => up c = false) x -> x <> [] ->
  mkdir d (rev (x ++ t)) = (d', e) -> good d' t /\ unchanged t d d'.
Proof.
  intros d t x d' e P G N Nx M. unfold mkdir in M.
  destruct (entry_of d (rev (x ++ t))) as [p|e'] eqn:E; [|injection M as <- <-; split; [exact G|apply unchanged_refl]].
  destruct (at_ d p) eqn:A; injection M as <- <-; [split; [exact G|apply unchanged_refl]|].
  unfold entry_of in E. rewrite rev_involutive in E. destruct x as [|c x]; [congruence|]. cbn [app] in E.
  destruct (locate d (rev (x ++ t))) as [p'|] eqn:L; [|discriminate E].
  inversion N; subst.
  apply locate_below in L; [|assumption..].
  destruct (negb (is_dir d p')); [destruct (is_some (at_ d p')); discriminate E|].
  destruct (here c || up c); [discriminate E|]. injection E as <-. rewrite L.
  rewrite app_comm_cons. apply put_good; [exact G|discriminate|exact I].
Qed.
Lemma write_good : forall d t x content d' e, Forall plain t -> good d t -> Forall (fun c => up c = false) x ->
  write_file d (rev (x ++ t)) content = (d', e) -> good d' t /\ unchanged t d d'.
Proof.
  intros d t x content d' e P G N M. unfold write_file in M.
  destruct (locate d (rev (x ++ t))) as [p|e'] eqn:L; [|injection M as <- <-; split; [exact G|apply unchanged_refl]].
  destruct (is_dir d p) eqn:D; injection M as <- <-; [split; [exact G|apply unchanged_refl]|].
  apply locate_below in L; [|assumption..]. subst p. apply put_good; [exact G| |exact I].
  intros E. rewrite E in D. cbn [app] in D. rewrite solid_dir in D by apply G. discriminate D.
Qed.
Lemma mkdir_there : forall d t, Forall plain t -> solid d t -> mkdir d (rev t) = (d, Some Exists_).
Proof.
  intros d t P S. unfold mkdir, entry_of. rewrite rev_involutive. destruct t as [|c t]; [reflexivity|].
  inversion P as [|? ? [Hc Uc] Pt]; subst. pose proof (solid_suffix d [c] t S) as St.
  rewrite locate_solid by assumption. rewrite solid_dir by exact St. cbn [negb]. rewrite Hc, Uc. cbn [orb].
  rewrite (S [] (c :: t) eq_refl) by discriminate. reflexivity.
Qed.
Lemma plain_not_dot : forall c, plain c -> str_eqb c (lit ".") = false.
Proof. intros c [H _]. unfold here in H. apply orb_false_iff in H. apply H. Qed.
Lemma makedirs_there : forall d t, Forall plain t -> solid d t -> makedirs d t = (d, Some Exists_).
Proof.
  intros d t P S. destruct t as [|c t]; [reflexivity|]. cbn [makedirs].
  inversion P; subst. rewrite exists_solid by (try assumption; apply (solid_suffix d [c] t S)).
  assert (Hr : (match t with [] => (d, None) | _ :: _ => (d, None) end) = (d, @None oserr)) by (destruct t; reflexivity).
  rewrite Hr. cbn [and_then]. rewrite plain_not_dot by assumption. apply mkdir_there; assumption.
Qed.
Lemma makedirs_good : forall t x d d' e, Forall plain t -> good d t -> Forall (fun c => up c = false) x ->
  makedirs d (x ++ t) = (d', e) -> good d' t /\ unchanged t d d'.
Proof.
  intros t. induction x as [|c x IH]; intros d d' e P G N M.
  - cbn [app] in M. rewrite makedirs_there in M by (try assumption; apply G). injection M as <- <-. split; [exact G|apply unchanged_refl].
  - cbn [app makedirs] in M. inversion N as [|? ? Nc Nx]; subst.
    set (ready := match x ++ t with [] => (d, None) | _ => _ end) in M.
    assert (R : good (fst ready) t /\ unchanged t d (fst ready)).
    { unfold ready. destruct (x ++ t) eqn:E; [split; [exact G|apply unchanged_refl]|]. rewrite <- E in *.
      destruct (exists_at d (rev (x ++ t))); [split; [exact G|apply unchanged_refl]|].
      destruct (makedirs d (x ++ t)) as [d1 e1] eqn:M1. specialize (IH d d1 e1 P G Nx M1).
      destruct e1 as [[]|]; exact IH. }
    destruct ready as [d1 [e1|]]; cbn [and_then fst] in M, R; [injection M as <- <-; exact R|].
    destruct (str_eqb c (lit ".")); [injection M as <- <-; exact R|]. destruct R as [G1 U1].
    apply (mkdir_good d1 t (c :: x)) in M; [|assumption..|discriminate].
    split; [apply M|]. apply (unchanged_trans t d d1 d'); [exact U1|apply M].
Qed.
Lemma removelast_rev : forall (l : list str), removelast (rev l) = rev (tl l).
Proof. destruct l as [|c l]; [reflexivity|]. cbn [rev tl]. rewrite removelast_app by discriminate. cbn. apply app_nil_r. Qed.
Lemma upper_good : forall d t x d' e, Forall plain t -> good d t -> Forall (fun c => up c = false) x ->
  upper_dirs d (rev (x ++ t)) = (d', e) -> good d' t /\ unchanged t d d'.
Proof.
  intros d t x d' e P G N M. unfold upper_dirs in M. rewrite removelast_rev in M.
  destruct (exists_at d (rev (tl (x ++ t)))) eqn:E; [injection M as <- <-; split; [exact G|apply unchanged_refl]|].
  destruct x as [|c x].
  - cbn [app] in E. destruct t as [|c t]; [discriminate E|]. cbn [tl] in E. inversion P; subst.
    rewrite exists_solid in E; [discriminate E|assumption|apply (solid_suffix d [c] t (proj1 G))].
  - cbn [app tl] in M. rewrite rev_involutive in M. inversion N; subst. apply (makedirs_good t x d d' e); assumption.
Qed.

Lemma valid_plain : forall l, Forall plain (filter valid_part l).
Proof.
  intros l. apply Forall_forall. intros c I. apply filter_In in I. destruct I as [_ V]. unfold valid_part in V.
  apply negb_true_iff, orb_false_iff in V. exact V.
Qed.
Lemma plain_no_up : forall l, Forall plain l -> Forall (fun c => up c = false) l.
Proof. intros l F. eapply Forall_impl; [|exact F]. intros c [_ H]. exact H. Qed.
Lemma zip_member_good : forall d t name content d' e, Forall plain t -> good d t ->
  zip_member d t name content = (d', e) -> good d' t /\ unchanged t d d'.
Proof.
  intros d t name content d' e P G M. unfold zip_member in M.
  set (x := rev (filter valid_part (components name))) in *.
  assert (Ec : rev t ++ filter valid_part (components name) = rev (x ++ t)) by (unfold x; rewrite rev_app_distr, rev_involutive; reflexivity).
  rewrite Ec in M.
  assert (N : Forall (fun c => up c = false) x) by (apply plain_no_up, Forall_rev, valid_plain).
  destruct (upper_dirs d (rev (x ++ t))) as [d1 [e1|]] eqn:Up; cbn [and_then] in M;
    apply upper_good in Up; try assumption; destruct Up as [G1 U1]; [injection M as <- <-; split; assumption|].
  assert (K : forall r, good r t /\ unchanged t d1 r -> good r t /\ unchanged t d r)
    by (intros r [Gr Ur]; split; [exact Gr|apply (unchanged_trans t d d1 r); assumption]).
  apply K. destruct (names_dir name).
  - destruct (isdir_at d1 (rev (x ++ t))) eqn:D; [injection M as <- <-; split; [exact G1|apply unchanged_refl]|].
    apply (mkdir_good d1 t x d' e); try assumption.
    intros E. rewrite E in D. cbn [app] in D. unfold isdir_at in D. rewrite locate_solid in D by (try assumption; apply G1).
    rewrite solid_dir in D by apply G1. discriminate D.
  - apply (write_good d1 t x content d' e); assumption.
Qed.
Lemma zip_all_good : forall z t names d d' e, Forall plain t -> good d t -> zip_all z names d t = (d', e) -> good d' t /\ unchanged t d d'.
Proof.
  intros z t. induction names as [|n names IH]; intros d d' e P G M; cbn [zip_all] in M; [injection M as <- <-; split; [exact G|apply unchanged_refl]|].
  destruct (zip_member d t n (opt_or (info z n) [])) as [d1 [e1|]] eqn:E; cbn [and_then] in M; apply zip_member_good in E; try assumption.
  - injection M as <- <-. exact E.
  - destruct E as [G1 U1]. specialize (IH d1 d' e P G1 M). split; [apply IH|]. apply (unchanged_trans t d d1 d'); [exact U1|apply IH].
Qed.

(** members of tar files that stay where they belong *)
Definition tame (m : str * kind) : Prop :=
  absolute (fst m) = false /\ Forall (fun c => up c = false) (components (fst m)) /\ match snd m with Symlink _ => False | _ => True end.
Lemma absolute_slashes : forall n, absolute n = false -> forallb (ascii_eqb "/") n = true -> n = [].
Proof.
  intros [|c n] A F; [reflexivity|]. cbn in F. apply andb_true_iff in F. destruct F as [F _].
  unfold absolute in A. cbn in A. unfold ascii_eqb in *. rewrite F in A. discriminate A.
Qed.
Lemma Forall_filter : forall (P : str -> Prop) f l, Forall P l -> Forall P (filter f l).
Proof. intros P f l F. apply Forall_forall. intros x I. apply filter_In in I. rewrite Forall_forall in F. apply F, I. Qed.
Lemma tar_member_good : forall d t m d' e, Forall plain t -> good d t -> tame m ->
  tar_member d t (fst m) (snd m) = (d', e) -> good d' t /\ unchanged t d d'.
Proof.
  intros d t [name k] d' e P G [A [N K]] M. cbn [fst snd] in *. unfold tar_member in M.
  assert (Es : stored_name name k = name).
  { destruct k; try reflexivity. cbn. destruct (forallb (ascii_eqb "/") name) eqn:F; [|reflexivity]. symmetry. apply absolute_slashes; assumption. }
  rewrite Es in M. unfold joined in M. rewrite A in M. clear A Es.
  set (x := rev (filter nonempty (components name))) in *.
  assert (Ec : rev t ++ filter nonempty (components name) = rev (x ++ t)) by (unfold x; rewrite rev_app_distr, rev_involutive; reflexivity).
  rewrite Ec in M.
  assert (Nx : Forall (fun c => up c = false) x) by (apply Forall_rev, Forall_filter; exact N).
  destruct (rev (x ++ t)) as [|c0 l0] eqn:El; [injection M as <- <-; split; [exact G|apply unchanged_refl]|]. rewrite <- El in M. clear El Ec.
  destruct (upper_dirs d (rev (x ++ t))) as [d1 [e1|]] eqn:Up; cbn [and_then] in M;
    apply upper_good in Up; try assumption; destruct Up as [G1 U1]; [injection M as <- <-; split; assumption|].
  assert (Tr : forall r, good r t /\ unchanged t d1 r -> good r t /\ unchanged t d r)
    by (intros r [Gr Ur]; split; [exact Gr|apply (unchanged_trans t d d1 r); assumption]).
  apply Tr. destruct k as [content| |l]; [apply (write_good d1 t x content d' e); assumption| |destruct K].
  assert (Mk : forall d2 e2, mkdir d1 (rev (x ++ t)) = (d2, e2) -> good d2 t /\ unchanged t d1 d2).
  { intros d2 e2 E. destruct x as [|c x]; [|apply (mkdir_good d1 t (c :: x) d2 e2); try assumption; discriminate].
    cbn [app] in E. rewrite mkdir_there in E by (try assumption; apply G1). injection E as <- <-. split; [exact G1|apply unchanged_refl]. }
  destruct (mkdir d1 (rev (x ++ t))) as [d2 e2] eqn:E2. specialize (Mk d2 e2 eq_refl).
  destruct e2 as [[]|]; try (injection M as <- <-; exact Mk).
  destruct (isdir_at d2 (rev (x ++ t))); injection M as <- <-; exact Mk.
Qed.
Lemma tar_extract_good : forall t ms d d' e, Forall plain t -> good d t -> Forall tame ms -> tar_extract ms d t = (d', e) -> good d' t /\ unchanged t d d'.
Proof.
  intros t. induction ms as [|[n k] ms IH]; intros d d' e P G F M; cbn [tar_extract] in M; [injection M as <- <-; split; [exact G|apply unchanged_refl]|].
  inversion F as [|? ? Fm Fr]; subst.
  destruct (tar_member d t n k) as [d1 [e1|]] eqn:E; cbn [and_then] in M; apply (tar_member_good d t (n, k)) in E; try assumption.
  - injection M as <- <-. exact E.
  - destruct E as [G1 U1]. specialize (IH d1 d' e P G1 Fr M). split; [apply IH|]. apply (unchanged_trans t d d1 d'); [exact U1|apply IH].
Qed.

Lemma mkdir_parents_there : forall d t, Forall plain t -> solid d t -> mkdir_parents d t = (d, None).
Proof.
  intros d t P S. destruct t as [|c t]; [reflexivity|]. unfold mkdir_parents. rewrite mkdir_there by assumption. fold mkdir_parents.
  unfold isdir_at. rewrite locate_solid by assumption. rewrite solid_dir by exact S. reflexivity.
Qed.
(** the archive that [extract_archive] reads from a file with that name *)
Definition is_zip_name (name : str) : Prop := ends_with name (lit ".zip") = true \/ ends_with name (lit ".whl") = true.
Lemma endswith_any_zip : forall name, endswith_any name [lit ".zip"; lit ".whl"] <> None <-> is_zip_name name.
Proof.
  intros name. unfold endswith_any, is_zip_name. cbn [find].
  destruct (ends_with name (lit ".zip")); [split; [left; reflexivity|discriminate]|].
  destruct (ends_with name (lit ".whl")); [split; [right; reflexivity|discriminate]|].
  split; [intros H; exfalso; apply H; reflexivity|intros [H|H]; discriminate H].
Qed.

(** making directories that are missing *)
Lemma mkdir_new : forall d T c, Forall plain (c :: T) -> solid d T -> at_ d (c :: T) = None -> mkdir d (rev (c :: T)) = (put d (c :: T) Dir, None).
Proof.
  intros d T c P S A. inversion P as [|? ? [Hc Uc] Pt]; subst. unfold mkdir, entry_of. rewrite rev_involutive.
  rewrite locate_solid by assumption. rewrite solid_dir by exact S. cbn [negb]. rewrite Hc, Uc. cbn [orb]. rewrite A. reflexivity.
Qed.
Lemma walk_missing : forall d T c r, Forall plain (c :: T) -> solid d T -> at_ d (c :: T) = None ->
  locate d (rev (c :: T) ++ r) = match r with [] => Got (c :: T) | _ => Raised NotFound end.
Proof.
  intros d T c r P S A. inversion P as [|? ? [Hc Uc] Pt]; subst. cbn [rev]. rewrite <- app_assoc.
  rewrite locate_dirs by assumption. cbn [app]. rewrite walk_eq. rewrite solid_dir by exact S. cbn [negb]. rewrite Hc, Uc, A.
  destruct r; reflexivity.
Qed.
Lemma exists_missing : forall d T c n, Forall plain (n ++ c :: T) -> solid d T -> at_ d (c :: T) = None -> exists_at d (rev (n ++ c :: T)) = false.
Proof.
  intros d T c n P S A. unfold exists_at. rewrite rev_app_distr. rewrite walk_missing; [|apply Forall_app in P; apply P|exact S|exact A].
  destruct (rev n); [|reflexivity]. cbn [is_dir]. rewrite A. reflexivity.
Qed.
Lemma app_same_length : forall (a b : list str) (t : list str), a ++ t = b ++ t -> a = b.
Proof. intros a b t E. apply app_inv_tail in E. exact E. Qed.
Lemma solid_put : forall d c T, solid d T -> at_ d (c :: T) = None -> solid (put d (c :: T) Dir) (c :: T).
Proof.
  intros d c T S A a b E N. destruct a as [|x a]; cbn in E; [subst b; apply at_put_same|].
  injection E as <- ->. rewrite at_put_other; [apply (S a b eq_refl N)|].
  intros E. apply (f_equal (@length str)) in E. cbn in E. rewrite app_length in E. lia.
Qed.
Lemma makedirs_new : forall T new d, Forall plain (new ++ T) -> solid d T -> new <> [] ->
  (forall b q, new = b ++ q -> q <> [] -> at_ d (q ++ T) = None) ->
  exists d', makedirs d (new ++ T) = (d', None) /\ solid d' (new ++ T) /\
    (forall p, (forall b q, new = b ++ q -> q <> [] -> p <> q ++ T) -> at_ d' p = at_ d p).
Proof.
  intros T. induction new as [|c n IH]; intros d P S Nn M; [congruence|]. clear Nn.
  cbn [app] in *. inversion P as [|? ? Pc Pn]; subst.
  assert (Rd : exists d1, (match n ++ T with [] => (d, None) | _ =>
      if exists_at d (rev (n ++ T)) then (d, None) else match makedirs d (n ++ T) with (d, Some Exists_) => (d, None) | o => o end end) = (d1, None)
      /\ solid d1 (n ++ T) /\ (forall p, (forall b q, n = b ++ q -> q <> [] -> p <> q ++ T) -> at_ d1 p = at_ d p)).
  { destruct n as [|c' n'] eqn:En.
    - exists d. cbn [app] in *. rewrite exists_solid by assumption. split; [destruct T; reflexivity|]. split; [exact S|reflexivity].
    - rewrite <- En in *. assert (Nn : n <> []) by (rewrite En; discriminate).
      assert (Ex : exists_at d (rev (n ++ T)) = false).
      { destruct (exists_last Nn) as [n0 [c0 E0]]. rewrite E0 in *. rewrite <- app_assoc in *. cbn [app] in *.
        apply exists_missing; [exact Pn|exact S|]. apply (M (c :: n0) [c0]); [reflexivity|discriminate]. }
      rewrite Ex. destruct (IH d Pn S Nn) as [d1 [E1 [S1 F1]]].
      { intros b q E N. apply (M (c :: b) q); [rewrite E; reflexivity|exact N]. }
      exists d1. rewrite E1. split; [destruct (n ++ T) eqn:En'; [rewrite En in En'; discriminate En'|reflexivity]|]. split; assumption. }
  destruct Rd as [d1 [E1 [S1 F1]]].
  assert (A1 : at_ d1 (c :: n ++ T) = None).
  { rewrite F1. - apply (M [] (c :: n)); [reflexivity|discriminate].
    - intros b q E _ E'. apply (f_equal (@length str)) in E, E'. cbn in E'. rewrite !app_length in *. lia. }
  exists (put d1 (c :: n ++ T) Dir). cbn [makedirs]. rewrite E1. cbn [and_then]. rewrite plain_not_dot by exact Pc.
  split; [apply mkdir_new; assumption|]. split; [apply solid_put; assumption|].
  intros p Np. rewrite at_put_other.
  - apply F1. intros b q E N. apply (Np (c :: b) q); [rewrite E; reflexivity|exact N].
  - intros E. apply (Np [] (c :: n) eq_refl); [discriminate|symmetry; exact E].
Qed.
Lemma upper_new : forall T new c d, Forall plain (new ++ T) -> solid d T ->
  (forall b q, new = b ++ q -> q <> [] -> at_ d (q ++ T) = None) ->
  exists d', upper_dirs d (rev (c :: new ++ T)) = (d', None) /\ solid d' (new ++ T) /\
    (forall p, (forall b q, new = b ++ q -> q <> [] -> p <> q ++ T) -> at_ d' p = at_ d p).
Proof.
  intros T new c d P S M. unfold upper_dirs. rewrite removelast_rev. cbn [tl].
  destruct new as [|c' n'] eqn:En.
  - exists d. cbn [app] in *. rewrite exists_solid by assumption. split; [reflexivity|]. split; [exact S|reflexivity].
  - rewrite <- En in *. assert (Nn : new <> []) by (rewrite En; discriminate).
    assert (Ex : exists_at d (rev (new ++ T)) = false).
    { destruct (exists_last Nn) as [n0 [c0 E0]]. rewrite E0 in *. rewrite <- app_assoc in *. cbn [app] in *.
      apply exists_missing; [exact P|exact S|]. apply (M n0 [c0]); [reflexivity|discriminate]. }
    rewrite Ex, rev_involutive. apply makedirs_new; assumption.
Qed.
Lemma write_new : forall d T c content, Forall plain (c :: T) -> solid d T -> at_ d (c :: T) = None ->
  write_file d (rev (c :: T)) content = (put d (c :: T) (File content), None).
Proof.
  intros d T c content P S A. unfold write_file. rewrite <- (app_nil_r (rev (c :: T))). rewrite walk_missing by assumption.
  cbn [is_dir]. rewrite A. reflexivity.
Qed.

(** what is below [t] when the members [done] have been extracted: these files and the directories above them *)
Definition contents (t : place) (done : list (place * str)) (d : disk) : Prop :=
  forall q, q <> [] ->
    (forall c, at_ d (q ++ t) = Some (File c) <-> In (q, c) done) /\
    (at_ d (q ++ t) = Some Dir <-> exists b m c, b <> [] /\ In (m, c) done /\ m = b ++ q).
(** places of files that can be beside each other *)
Definition apart (x y : place) : Prop := x <> y /\ (forall b, b <> [] -> x <> b ++ y) /\ (forall b, b <> [] -> y <> b ++ x).

Lemma old_new : forall t done d u, solid d t -> unlinked d t -> contents t done d ->
  (forall b q c, u = b ++ q -> ~ In (q, c) done) ->
  exists new old, u = new ++ old /\ solid d (old ++ t) /\ (forall b q, new = b ++ q -> q <> [] -> at_ d (q ++ old ++ t) = None).
Proof.
  intros t done d. induction u as [|c u IH]; intros S U C N.
  - exists [], []. split; [reflexivity|]. split; [exact S|]. intros b q E Nq. destruct b, q; try discriminate E; congruence.
  - destruct IH as [new [old [E [So Nn]]]]; [exact S|exact U|exact C|intros b q x E; apply (N (c :: b) q x); rewrite E; reflexivity|].
    destruct (C (c :: u) ltac:(discriminate)) as [Cf Cd].
    destruct (at_ d ((c :: u) ++ t)) as [[x| |x y]|] eqn:A.
    + exfalso. apply (N [] (c :: u) x eq_refl). apply Cf. reflexivity.
    + destruct new as [|c' new].
      * cbn [app] in E. subst u. exists [], (c :: old). split; [reflexivity|]. split; [apply solid_cons; assumption|].
        intros b q Eq Nq. destruct b, q; try discriminate Eq; congruence.
      * (* a directory below something missing *)
        exfalso. destruct (proj1 Cd eq_refl) as [b [m [x [Nb [I Em]]]]].
        assert (Nu : u <> []) by (rewrite E; discriminate).
        destruct (C u Nu) as [_ Cu].
        assert (H : at_ d (u ++ t) = Some Dir).
        { apply Cu. exists (b ++ [c]), m, x. split; [destruct b; discriminate|]. split; [exact I|]. rewrite Em, <- app_assoc. reflexivity. }
        specialize (Nn [] (c' :: new) eq_refl ltac:(discriminate)). rewrite app_assoc, <- E, H in Nn. discriminate Nn.
    + exfalso. exact (U (c :: u) x y A).
    + exists (c :: new), old. split; [rewrite E; reflexivity|]. split; [exact So|].
      intros b q Eq Nq. destruct b as [|x b]; cbn in Eq.
      * subst q. cbn [app] in *. rewrite app_assoc, <- E. exact A.
      * injection Eq as <- Eq. apply (Nn b q Eq Nq).
Qed.

Lemma in_app_suffix : forall (a b c e : list str), a ++ b = c ++ e -> length b <= length e -> exists f, e = f ++ b.
Proof.
  intros a b c e E L. exists (firstn (length e - length b) e).
  rewrite <- (firstn_skipn (length e - length b) e) at 1. f_equal.
  assert (H : skipn (length a) (a ++ b) = b) by (rewrite skipn_app, skipn_all, Nat.sub_diag; reflexivity).
  rewrite E in H. rewrite skipn_app in H. apply (f_equal (@length str)) in E. rewrite !app_length in E.
  rewrite skipn_all2 in H by lia. cbn [app] in H. rewrite <- H at 2. f_equal. lia.
Qed.
(** one more file *)
Lemma one_file : forall t done d c u content, Forall plain t -> Forall plain (c :: u) -> good d t -> contents t done d ->
  Forall (fun m => apart (c :: u) (fst m)) done ->
  exists d1 d', upper_dirs d (rev ((c :: u) ++ t)) = (d1, None) /\ write_file d1 (rev ((c :: u) ++ t)) content = (d', None)
    /\ good d' t /\ contents t ((c :: u, content) :: done) d'.
Proof.
  intros t done d c u content Pt Pu [S U] C F. rewrite Forall_forall in F.
  inversion Pu as [|? ? Pc Pu']; subst.
  destruct (old_new t done d u S U C) as [new [old [E [So Nn]]]].
  { intros b q x Eq I. destruct (F _ I) as [_ [N _]]. apply (N (c :: b)); [discriminate|]. cbn. rewrite Eq. reflexivity. }
  assert (Pn : Forall plain (new ++ old ++ t)) by (rewrite app_assoc, <- E; apply Forall_app; split; assumption).
  destruct (upper_new (old ++ t) new c d Pn So Nn) as [d1 [E1 [S1 F1]]].
  assert (Eut : u ++ t = new ++ old ++ t) by (rewrite E, app_assoc; reflexivity).
  assert (A0 : at_ d (c :: u ++ t) = None).
  { destruct (C (c :: u) ltac:(discriminate)) as [Cf Cd]. cbn [app] in *. destruct (at_ d (c :: u ++ t)) as [[x| |x y]|] eqn:A; [| | |reflexivity].
    - exfalso. destruct (F (c :: u, x) (proj1 (Cf x) eq_refl)) as [N _]. apply N. reflexivity.
    - exfalso. destruct (proj1 Cd eq_refl) as [b [m [x [Nb [I Em]]]]]. destruct (F _ I) as [_ [_ N]]. exact (N b Nb Em).
    - exfalso. exact (U (c :: u) x y A). }
  assert (A1 : at_ d1 (c :: u ++ t) = None).
  { rewrite F1; [exact A0|]. intros b q Eq _ E'. apply (f_equal (@length str)) in Eq. rewrite app_length in Eq.
    rewrite Eut in E'. apply (f_equal (@length str)) in E'. cbn in E'. rewrite !app_length in E'. lia. }
  exists d1, (put d1 (c :: u ++ t) (File content)). cbn [app]. rewrite Eut. split; [exact E1|]. rewrite <- Eut in *.
  split; [apply write_new; [constructor; [exact Pc|exact Pn]|exact S1|exact A1]|].
  (* the directories made *)
  assert (Dr : forall b q, u = b ++ q -> q <> [] -> at_ d1 (q ++ t) = Some Dir).
  { intros b q Eq Nq. apply (S1 b (q ++ t)); [rewrite Eq in *; rewrite app_assoc; reflexivity|destruct q; [congruence|discriminate]]. }
  assert (Ke : forall q, (forall b, u <> b ++ q) -> at_ d1 (q ++ t) = at_ d (q ++ t)).
  { intros q Nq. apply F1. intros b r Er Nr Eq. rewrite app_assoc in Eq. apply app_same_length in Eq.
    apply (Nq b). rewrite E, Er, Eq. apply app_assoc_reverse. }
  assert (G1 : good d1 t).
  { split.
    - intros a b Eb Nb. apply (S1 (u ++ a) b); [rewrite Eb, app_assoc; reflexivity|exact Nb].
    - intros q x y Aq. destruct q as [|c' q].
      + cbn [app] in Aq. destruct t as [|ct t']. * rewrite F1 in Aq; [exact (U [] x y Aq)|]. intros b r _ Nr Er. destruct r; [congruence|discriminate Er].
        * rewrite (S1 u (ct :: t') eq_refl) in Aq by discriminate. discriminate Aq.
      + destruct (le_lt_dec (length (c' :: q)) (length u)) as [L|L].
        * destruct (place_dec (skipn (length u - length (c' :: q)) u) (c' :: q)) as [Es|Es].
          { rewrite (Dr (firstn (length u - length (c' :: q)) u) (c' :: q)) in Aq;
              [discriminate Aq|rewrite <- Es at 2; symmetry; apply firstn_skipn|discriminate]. }
          { rewrite Ke in Aq; [exact (U (c' :: q) x y Aq)|]. intros b Eb. apply Es. rewrite Eb, app_length.
            replace (length b + length (c' :: q) - length (c' :: q)) with (length b) by lia.
            rewrite skipn_app, skipn_all, Nat.sub_diag. reflexivity. }
        * rewrite Ke in Aq; [exact (U (c' :: q) x y Aq)|]. intros b Eb. apply (f_equal (@length str)) in Eb. rewrite app_length in Eb. lia. }
  split; [rewrite app_comm_cons; apply put_good; [exact G1|discriminate|exact I]|].
  intros q Nq. destruct (place_dec (c :: u) q) as [Eq|Eq].
  - subst q. rewrite app_comm_cons, at_put_same. split.
    + intros x. split.
      * intros H. injection H as <-. left. reflexivity.
      * intros [H|H]; [injection H as <-; reflexivity|]. exfalso. destruct (F _ H) as [N _]. apply N. reflexivity.
    + split; [discriminate|]. intros [b [m [x [Nb [I Em]]]]]. exfalso. destruct I as [I|I].
      * injection I as <- <-. apply (f_equal (@length str)) in Em. rewrite app_length in Em. destruct b; [congruence|cbn in Em; lia].
      * destruct (F _ I) as [_ [_ N]]. exact (N b Nb Em).
  - rewrite at_put_other by (intros H; rewrite app_comm_cons in H; apply app_same_length in H; congruence).
    destruct (C q Nq) as [Cf Cd].
    assert (Case : (exists b, u = b ++ q) \/ (forall b, u <> b ++ q)).
    { destruct (le_lt_dec (length q) (length u)) as [L|L].
      - destruct (place_dec (skipn (length u - length q) u) q) as [Es|Es].
        + left. exists (firstn (length u - length q) u). rewrite <- Es at 2. symmetry. apply firstn_skipn.
        + right. intros b Eb. apply Es. rewrite Eb, app_length.
          replace (length b + length q - length q) with (length b) by lia. rewrite skipn_app, skipn_all, Nat.sub_diag. reflexivity.
      - right. intros b Eb. apply (f_equal (@length str)) in Eb. rewrite app_length in Eb. lia. }
    destruct Case as [[b Eb]|Nb].
    + rewrite (Dr b q Eb Nq). split.
      * intros x. split; [discriminate|]. intros [H|H]; [congruence|]. exfalso. destruct (F _ H) as [_ [N _]].
        apply (N (c :: b)); [discriminate|]. cbn. rewrite Eb. reflexivity.
      * split; [|reflexivity]. intros _. exists (c :: b), (c :: u), content. split; [discriminate|]. split; [left; reflexivity|rewrite Eb; reflexivity].
    + rewrite Ke by exact Nb. split.
      * intros x. rewrite Cf. split; [right; assumption|]. intros [H|H]; [congruence|exact H].
      * rewrite Cd. split; intros [b [m [x [Nb' [I Em]]]]].
        { exists b, m, x. split; [exact Nb'|]. split; [right; exact I|exact Em]. }
        { destruct I as [I|I]; [|exists b, m, x; split; [exact Nb'|]; split; [exact I|exact Em]].
          exfalso. injection I as <- <-. destruct b as [|cb b]; [congruence|]. cbn in Em. injection Em as _ Em. exact (Nb b Em). }
Qed.

(** a member: the parts of its name, and its content *)
Definition member := (list str * str)%type.
Definition name_of (m : member) : str := join (lit "/") (fst m).
Definition place_of (m : member) : place := rev (fst m).
Definition part (c : str) : Prop := plain c /\ ~ In "/"%char c.
Definition regular (m : member) : Prop := fst m <> [] /\ Forall part (fst m).
Definition separate (ms : list member) : Prop := ForallOrdPairs (fun a b => apart (place_of a) (place_of b)) ms.

Lemma part_plain : forall l, Forall part l -> Forall plain l.
Proof. intros l F. eapply Forall_impl; [|exact F]. intros c [H _]. exact H. Qed.
Lemma components_name : forall m, regular m -> components (name_of m) = fst m.
Proof.
  intros m [N F]. unfold components, name_of. apply (split_join "/"%char); [exact N|].
  intros w I. rewrite Forall_forall in F. apply (F w I).
Qed.
Lemma filter_all : forall (f : str -> bool) l, Forall (fun c => f c = true) l -> filter f l = l.
Proof. intros f. induction l as [|c l IH]; intros F; [reflexivity|]. inversion F; subst. cbn. rewrite H1, IH by assumption. reflexivity. Qed.
Lemma valid_all : forall l, Forall plain l -> filter valid_part l = l.
Proof. intros l F. apply filter_all. eapply Forall_impl; [|exact F]. intros c [H K]. unfold valid_part. rewrite H, K. reflexivity. Qed.
Lemma plain_nonempty : forall c, plain c -> c <> [].
Proof. intros c [H _] E. rewrite E in H. discriminate H. Qed.
Lemma nonempty_all : forall l, Forall plain l -> filter nonempty l = l.
Proof.
  intros l F. apply filter_all. eapply Forall_impl; [|exact F]. intros c P. unfold nonempty.
  destruct c; [exfalso; exact (plain_nonempty [] P eq_refl)|reflexivity].
Qed.
Lemma place_cons : forall m, regular m -> exists c u, place_of m = c :: u.
Proof. intros [l x] [N _]. unfold place_of. cbn in *. destruct (rev l) eqn:E; [|eauto]. apply (f_equal (@rev str)) in E. rewrite rev_involutive in E. cbn in E. congruence. Qed.
Lemma place_plain : forall m, regular m -> Forall plain (place_of m).
Proof. intros m [_ F]. apply Forall_rev, part_plain, F. Qed.
Lemma rev_place : forall t m, rev (place_of m ++ t) = rev t ++ fst m.
Proof. intros t m. unfold place_of. rewrite rev_app_distr, rev_involutive. reflexivity. Qed.
(** names do not end with a slash, and do not begin with one *)
Lemma join_last : forall l w, join (lit "/") (l ++ [w]) = match l with [] => w | _ => join (lit "/") l ++ lit "/" ++ w end.
Proof.
  induction l as [|a l IH]; intros w; [reflexivity|]. cbn [app join]. destruct l as [|b l]; [reflexivity|].
  rewrite IH. cbn [app]. rewrite <- !app_assoc. reflexivity.
Qed.
Lemma name_file : forall m, regular m -> names_dir (name_of m) = false.
Proof.
  intros [l x] [N F]. unfold name_of, names_dir. cbn [fst] in *. destruct (exists_last N) as [l0 [w E]]. subst l.
  apply Forall_app in F. destruct F as [_ F]. inversion F as [|? ? [Pw Sw] _]; subst. pose proof (plain_nonempty w Pw) as Nw.
  destruct (exists_last Nw) as [w0 [c Ew]]. subst w.
  rewrite join_last. assert (Nc : c <> "/"%char) by (intros ->; apply Sw, in_or_app; right; left; reflexivity).
  assert (H : forall s : str, match rev (s ++ [c]) with "/"%char :: _ => true | _ => false end = false).
  { intros s. rewrite rev_app_distr. cbn [rev app]. destruct c as [[] [] [] [] [] [] [] []]; try reflexivity. exfalso. apply Nc. reflexivity. }
  destruct l0 as [|a l0]; [apply H|]. rewrite !app_assoc. apply H.
Qed.
Lemma name_relative : forall m, regular m -> absolute (name_of m) = false.
Proof.
  intros [l x] [N F]. unfold name_of, absolute. cbn [fst] in *. destruct l as [|w l]; [congruence|].
  inversion F as [|? ? [Pw Sw] _]; subst. destruct w as [|c w]; [exfalso; exact (plain_nonempty [] Pw eq_refl)|].
  assert (Nc : c <> "/"%char) by (intros ->; apply Sw; left; reflexivity).
  assert (H : forall s : str, starts_with (lit "/") (c :: s) = false).
  { intros s. destruct c as [[] [] [] [] [] [] [] []]; try reflexivity. exfalso. apply Nc. reflexivity. }
  cbn [join]. destruct l; [apply H|]. cbn [app]. apply H.
Qed.

Lemma zip_member_one : forall t done d m, Forall plain t -> regular m -> good d t -> contents t done d ->
  Forall (fun e => apart (place_of m) (fst e)) done ->
  exists d', zip_member d t (name_of m) (snd m) = (d', None) /\ good d' t /\ contents t ((place_of m, snd m) :: done) d'.
Proof.
  intros t done d m Pt Rm G C F. destruct (place_cons m Rm) as [c [u Ep]]. pose proof (place_plain m Rm) as Pm. rewrite Ep in *.
  destruct (one_file t done d c u (snd m) Pt Pm G C F) as [d1 [d' [E1 [E2 [G' C']]]]].
  exists d'. unfold zip_member. rewrite components_name by exact Rm. rewrite valid_all by (apply part_plain, Rm).
  rewrite <- rev_place, Ep, E1. cbn [and_then]. rewrite name_file by exact Rm. split; [exact E2|]. split; assumption.
Qed.
Lemma tar_member_one : forall t done d m, Forall plain t -> regular m -> good d t -> contents t done d ->
  Forall (fun e => apart (place_of m) (fst e)) done ->
  exists d', tar_member d t (name_of m) (Regular (snd m)) = (d', None) /\ good d' t /\ contents t ((place_of m, snd m) :: done) d'.
Proof.
  intros t done d m Pt Rm G C F. destruct (place_cons m Rm) as [c [u Ep]]. pose proof (place_plain m Rm) as Pm. rewrite Ep in *.
  destruct (one_file t done d c u (snd m) Pt Pm G C F) as [d1 [d' [E1 [E2 [G' C']]]]].
  exists d'. unfold tar_member. cbn [stored_name]. unfold joined. rewrite name_relative by exact Rm. rewrite components_name by exact Rm.
  rewrite nonempty_all by (apply part_plain, Rm). rewrite <- rev_place, Ep.
  destruct (rev ((c :: u) ++ t)) as [|c0 l0] eqn:El; [apply (f_equal (@rev str)) in El; rewrite rev_involutive in El; discriminate El|].
  rewrite E1. cbn [and_then]. split; [exact E2|]. split; assumption.
Qed.
Lemma apart_sym : forall x y, apart x y -> apart y x.
Proof. intros x y [H [K L]]. split; [congruence|]. split; assumption. Qed.

Definition zip_of (ms : list member) : zip := map (fun m => (name_of m, snd m)) ms.
Definition tar_of (ms : list member) : tar := map (fun m => (name_of m, Regular (snd m))) ms.
Definition extracted (ms : list member) : list (place * str) := map (fun m => (place_of m, snd m)) ms.
Lemma contents_incl : forall t a b d, (forall e, In e a <-> In e b) -> contents t a d -> contents t b d.
Proof.
  intros t a b d E C q N. destruct (C q N) as [Cf Cd]. split.
  - intros c. rewrite Cf. apply E.
  - rewrite Cd. split; intros [x [m [c [Nx [I Em]]]]]; exists x, m, c; (split; [exact Nx|]; split; [apply E; exact I|exact Em]).
Qed.
Lemma tar_all_new : forall t ms done d, Forall plain t -> Forall regular ms -> separate ms -> good d t -> contents t done d ->
  (forall m e, In m ms -> In e done -> apart (place_of m) (fst e)) ->
  exists d', tar_extract (tar_of ms) d t = (d', None) /\ good d' t /\ contents t (rev (extracted ms) ++ done) d'.
Proof.
  intros t. induction ms as [|m ms IH]; intros done d Pt R S G C A.
  - exists d. split; [reflexivity|]. split; assumption.
  - inversion R as [|? ? Rm Rr]; subst. inversion S as [|? ? Sm Sr]; subst.
    destruct (tar_member_one t done d m Pt Rm G C) as [d1 [E1 [G1 C1]]].
    { apply Forall_forall. intros e I. apply A; [left; reflexivity|exact I]. }
    destruct (IH ((place_of m, snd m) :: done) d1 Pt Rr Sr G1 C1) as [d' [E' [G' C']]].
    { intros m' e I [<-|Ie]; [|apply A; [right; exact I|exact Ie]]. cbn. apply apart_sym. rewrite Forall_forall in Sm. apply Sm. exact I. }
    exists d'. cbn [tar_of map tar_extract]. rewrite E1. cbn [and_then]. split; [exact E'|]. split; [exact G'|].
    cbn [extracted map rev]. rewrite <- app_assoc. exact C'.
Qed.
Lemma zip_all_new : forall z t ms done d, Forall plain t -> Forall regular ms -> separate ms -> good d t -> contents t done d ->
  (forall m e, In m ms -> In e done -> apart (place_of m) (fst e)) ->
  (forall m, In m ms -> info z (name_of m) = Some (snd m)) ->
  exists d', zip_all z (map name_of ms) d t = (d', None) /\ good d' t /\ contents t (rev (extracted ms) ++ done) d'.
Proof.
  intros z t. induction ms as [|m ms IH]; intros done d Pt R S G C A Z.
  - exists d. split; [reflexivity|]. split; assumption.
  - inversion R as [|? ? Rm Rr]; subst. inversion S as [|? ? Sm Sr]; subst.
    destruct (zip_member_one t done d m Pt Rm G C) as [d1 [E1 [G1 C1]]].
    { apply Forall_forall. intros e I. apply A; [left; reflexivity|exact I]. }
    destruct (IH ((place_of m, snd m) :: done) d1 Pt Rr Sr G1 C1) as [d' [E' [G' C']]].
    { intros m' e I [<-|Ie]; [|apply A; [right; exact I|exact Ie]]. cbn. apply apart_sym. rewrite Forall_forall in Sm. apply Sm. exact I. }
    { intros m' I. apply Z. right. exact I. }
    exists d'. cbn [map zip_all]. rewrite (Z m) by (left; reflexivity). cbn [opt_or]. rewrite E1. cbn [and_then]. split; [exact E'|]. split; [exact G'|].
    cbn [extracted map rev]. rewrite <- app_assoc. exact C'.
Qed.
Lemma name_inj : forall a b, regular a -> regular b -> name_of a = name_of b -> place_of a = place_of b.
Proof. intros a b Ra Rb E. unfold place_of. rewrite <- (components_name a Ra), <- (components_name b Rb), E. reflexivity. Qed.
Lemma info_none : forall ms n, (forall m, In m ms -> name_of m <> n) -> info (zip_of ms) n = None.
Proof.
  induction ms as [|m ms IH]; intros n N; [reflexivity|]. cbn [zip_of map info]. fold (zip_of ms).
  rewrite IH by (intros m' I; apply N; right; exact I).
  destruct (str_eqb (name_of m) n) eqn:E; [|reflexivity]. apply str_eqb_eq in E. exfalso. apply (N m); [left; reflexivity|exact E].
Qed.
Lemma info_of : forall ms m, Forall regular ms -> separate ms -> In m ms -> info (zip_of ms) (name_of m) = Some (snd m).
Proof.
  induction ms as [|a ms IH]; intros m R S I; [destruct I|]. inversion R as [|? ? Ra Rr]; subst. inversion S as [|? ? Sm Sr]; subst.
  cbn [zip_of map info]. fold (zip_of ms). destruct I as [<-|I].
  - rewrite info_none; [rewrite str_eqb_refl; reflexivity|]. intros m I E. rewrite Forall_forall in Sm, Rr.
    destruct (Sm m I) as [N _]. apply N. symmetry. apply name_inj; [apply Rr; exact I|exact Ra|exact E].
  - rewrite (IH m Rr Sr I). reflexivity.
Qed.
Lemma contents_empty : forall t d, (forall q, q <> [] -> at_ d (q ++ t) = None) -> contents t [] d.
Proof.
  intros t d E q N. rewrite (E q N). split.
  - intros c. split; [discriminate|intros []].
  - split; [discriminate|]. intros [b [m [c [_ [[] _]]]]].
Qed.
Lemma zip_contents : forall t ms d, Forall plain t -> Forall regular ms -> separate ms -> good d t -> (forall q, q <> [] -> at_ d (q ++ t) = None) ->
  exists d', zip_extract (zip_of ms) d t = (d', None) /\ contents t (extracted ms) d'.
Proof.
  intros t ms d Pt R S G E. unfold zip_extract. replace (map fst (zip_of ms)) with (map name_of ms) by (unfold zip_of; rewrite map_map; reflexivity).
  destruct (zip_all_new (zip_of ms) t ms [] d Pt R S G (contents_empty t d E)) as [d' [E' [_ C]]].
  - intros m e _ [].
  - intros m I. apply info_of; assumption.
  - exists d'. split; [exact E'|]. eapply contents_incl; [|exact C]. intros e. rewrite app_nil_r, <- in_rev. reflexivity.
Qed.
Lemma tar_contents : forall t ms d, Forall plain t -> Forall regular ms -> separate ms -> good d t -> (forall q, q <> [] -> at_ d (q ++ t) = None) ->
  exists d', tar_extract (tar_of ms) d t = (d', None) /\ contents t (extracted ms) d'.
Proof.
  intros t ms d Pt R S G E.
  destruct (tar_all_new t ms [] d Pt R S G (contents_empty t d E)) as [d' [E' [_ C]]].
  - intros m e _ [].
  - exists d'. split; [exact E'|]. eapply contents_incl; [|exact C]. intros e. rewrite app_nil_r, <- in_rev. reflexivity.
Qed.

(** the ends of names *)
Lemma starts_with_app : forall p s, starts_with p (p ++ s) = true.
Proof. induction p as [|c p IH]; intros s; [reflexivity|]. cbn. unfold ascii_eqb. rewrite Ascii.eqb_refl. apply IH. Qed.
Lemma starts_with_split : forall p s, starts_with p s = true -> exists r, s = p ++ r.
Proof.
  induction p as [|c p IH]; intros s H; [exists s; reflexivity|]. destruct s as [|x s]; [discriminate H|]. cbn in H.
  apply andb_true_iff in H. destruct H as [H1 H2]. apply Ascii.eqb_eq in H1. subst x. destruct (IH s H2) as [r ->]. exists r. reflexivity.
Qed.
Lemma ends_with_app : forall p s, ends_with (p ++ s) s = true.
Proof. intros p s. unfold ends_with. rewrite rev_app_distr. apply starts_with_app. Qed.
Lemma ends_with_split : forall n s, ends_with n s = true -> exists p, n = p ++ s.
Proof.
  intros n s H. apply starts_with_split in H. destruct H as [r E]. exists (rev r).
  rewrite <- (rev_involutive n), E, rev_app_distr, rev_involutive. reflexivity.
Qed.
Lemma ends_with_none : forall n s, (forall p, n <> p ++ s) -> ends_with n s = false.
Proof. intros n s N. destruct (ends_with n s) eqn:E; [|reflexivity]. apply ends_with_split in E. destruct E as [p E]. destruct (N p E). Qed.
Lemma not_zip : forall name, ends_with name (lit ".tar.gz") = true \/ ends_with name (lit ".tar.bz2") = true ->
  endswith_any name [lit ".zip"; lit ".whl"] = None.
Proof.
  intros name H. unfold endswith_any. cbn [find].
  assert (K : forall s, In s [lit ".zip"; lit ".whl"] -> ends_with name s = false).
  { intros s I. destruct (ends_with name s) eqn:E; [|reflexivity]. exfalso.
    destruct H as [H|H]; apply ends_with_split in H; destruct H as [p ->]; unfold ends_with in E; rewrite rev_app_distr in E;
      destruct I as [<-|[<-|[]]]; discriminate E. }
  rewrite !K by (cbn; auto). reflexivity.
Qed.
