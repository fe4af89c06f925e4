From Coq Require Import String Ascii List Bool NArith Arith Lia.
From Verif Require Import Base BaseFacts NamesModel.
Import ListNotations.
Open Scope string_scope.
Open Scope nat_scope.
Open Scope list_scope.
Open Scope bool_scope.

(** PEP 508 names and PEP 503 normalisation *)
Definition is_sep (c : ascii) : bool := Ascii.eqb c "-" || Ascii.eqb c "_" || Ascii.eqb c ".".
Definition pep503 (s : str) : str := lower (sub_runs is_sep "-" false s).
Record valid_name (s : str) : Prop := {
  v_chars : forallb (fun c => is_alnum c || is_sep c) s = true;
  v_first : exists c r, s = c :: r /\ is_alnum c = true;
  v_last : exists c r, s = r ++ [c] /\ is_alnum c = true }.
Fixpoint single_seps (s : str) : bool :=
  match s with
  | [] => true
  | a :: r => match r with b :: _ => negb (is_sep a && is_sep b) && single_seps r | [] => true end
  end.

Ltac by_char c := destruct c as [[|] [|] [|] [|] [|] [|] [|] [|]]; vm_compute; try reflexivity; try discriminate; try tauto.
Lemma lstrip_id : forall c x r, Ascii.eqb x c = false -> lstrip c (x :: r) = x :: r.
Proof. intros c x r H. cbn. rewrite H. reflexivity. Qed.
Lemma strip_id : forall c x r y s, x :: r = s ++ [y] -> Ascii.eqb x c = false -> Ascii.eqb y c = false -> strip c (x :: r) = x :: r.
Proof.
  intros c x r y s E HX HY. unfold strip. rewrite lstrip_id by exact HX. rewrite E, rev_app_distr. cbn [rev app]. rewrite lstrip_id by exact HY. cbn [rev]. rewrite rev_involutive. reflexivity.
Qed.
Lemma alnum_not_dash : forall c, is_alnum c = true -> Ascii.eqb c "-" = false.
Proof. intro c. by_char c. Qed.
Lemma alnum_not_sep : forall c, is_alnum c = true -> is_sep c = false.
Proof. intro c. by_char c. Qed.
Lemma invalid_valid : forall c, is_alnum c || is_sep c = true -> invalid_char c = Ascii.eqb c "-".
Proof. intro c. by_char c. Qed.

(** what stripping does *)
Lemma lstrip_spec : forall c s, exists n, s = repeat c n ++ lstrip c s /\ (lstrip c s = [] \/ exists x r, lstrip c s = x :: r /\ Ascii.eqb x c = false).
Proof.
  intros c s. induction s as [|x s (n & E & D)]; [exists 0; auto|]. cbn [lstrip]. destruct (Ascii.eqb x c) eqn:EX.
  - exists (S n). apply Ascii.eqb_eq in EX. subst x. split; [cbn; rewrite <- E; reflexivity|exact D].
  - exists 0. split; [reflexivity|]. right. exists x, s. auto.
Qed.
Lemma strip_ends : forall c s, strip c s = [] \/ (exists x r y t, strip c s = x :: r /\ strip c s = t ++ [y] /\ Ascii.eqb x c = false /\ Ascii.eqb y c = false).
Proof.
  intros c s. unfold strip. destruct (lstrip_spec c s) as (n & E & D). set (l := lstrip c s) in *. clearbody l. destruct D as [-> | (x & r & -> & EX)]; [left; reflexivity|].
  destruct (lstrip_spec c (rev (x :: r))) as (m & E2 & D2). set (k := lstrip c (rev (x :: r))) in *. clearbody k. destruct D2 as [-> |(y & t & -> & EY)]; [left; reflexivity|]. right.
  assert (E3 : x :: r = rev t ++ [y] ++ repeat c m).
  { rewrite <- (rev_involutive (x :: r)), E2, rev_app_distr. cbn [rev]. rewrite <- app_assoc. f_equal. f_equal.
    clear. induction m as [|m IH]; [reflexivity|]. cbn [repeat rev]. rewrite IH. clear. induction m as [|m IH]; [reflexivity|]. cbn. rewrite IH. reflexivity. }
  cbn [rev]. destruct (rev t) as [|x' r'] eqn:ET.
  - exists y, [], y, []. cbn in E3. injection E3 as -> _. auto.
  - exists x', (r' ++ [y]), y, (x' :: r'). cbn in E3. injection E3 as -> _. auto.
Qed.
Lemma in_lstrip : forall c s x, In x (lstrip c s) -> In x s.
Proof. intros c s x. induction s as [|y s IH]; [auto|]. cbn [lstrip]. destruct (Ascii.eqb y c); [right; auto|auto]. Qed.
Lemma strip_sub : forall c s, exists a b, s = a ++ strip c s ++ b.
Proof.
  intros c s. unfold strip. destruct (lstrip_spec c s) as (n & E & _). destruct (lstrip_spec c (rev (lstrip c s))) as (m & E2 & _).
  exists (repeat c n), (rev (repeat c m)). rewrite E at 1. f_equal. rewrite <- (rev_involutive (lstrip c s)) at 1. rewrite E2 at 1. rewrite rev_app_distr. reflexivity.
Qed.
(** substitution leaves texts without runs alone *)
Fixpoint no_runs (bad : ascii -> bool) (rep : ascii) (inside : bool) (s : str) : bool :=
  match s with
  | [] => true
  | c :: r => if bad c then negb inside && Ascii.eqb c rep && no_runs bad rep true r else no_runs bad rep false r
  end.
Lemma sub_runs_id : forall bad rep s b, no_runs bad rep b s = true -> sub_runs bad rep b s = s.
Proof.
  intros bad rep s. induction s as [|c s IH]; intros b H; [reflexivity|]. cbn [no_runs sub_runs] in *. destruct (bad c).
  - apply andb_true_iff in H. destruct H as [H H2]. apply andb_true_iff in H. destruct H as [H0 H1]. apply negb_true_iff in H0. subst b. apply Ascii.eqb_eq in H1. subst c. rewrite IH by exact H2. reflexivity.
  - rewrite IH by exact H. reflexivity.
Qed.
Lemma sub_runs_no_runs : forall bad rep s b, bad rep = true -> no_runs bad rep b (sub_runs bad rep b s) = true.
Proof.
  intros bad rep s b HR. revert b. induction s as [|c s IH]; intro b; [reflexivity|]. cbn [sub_runs]. destruct (bad c) eqn:E.
  - destruct b; [apply IH|]. cbn [no_runs]. rewrite HR, Ascii.eqb_refl. apply IH.
  - cbn [no_runs]. rewrite E. apply IH.
Qed.
Lemma no_runs_app : forall bad rep a s b, no_runs bad rep b (a ++ s) = true -> exists b', no_runs bad rep b' s = true.
Proof.
  intros bad rep a. induction a as [|c a IH]; intros s b H; [exists b; exact H|]. cbn [app no_runs] in H. destruct (bad c); [|exact (IH s _ H)]. apply andb_true_iff in H. exact (IH s _ (proj2 H)).
Qed.
Lemma no_runs_prefix : forall bad rep a s b, no_runs bad rep b (a ++ s) = true -> no_runs bad rep b a = true.
Proof.
  intros bad rep a. induction a as [|c a IH]; intros s b H; [reflexivity|]. cbn [app no_runs] in *. destruct (bad c); [|exact (IH s _ H)]. apply andb_true_iff in H. destruct H as [H1 H2]. rewrite H1. exact (IH s _ H2).
Qed.
Lemma no_runs_weak : forall bad rep s b, no_runs bad rep b s = true -> no_runs bad rep false s = true.
Proof. intros bad rep [|c s] b H; [reflexivity|]. cbn [no_runs] in *. destruct (bad c); [|exact H]. apply andb_true_iff in H. destruct H as [H1 H2]. apply andb_true_iff in H1. destruct H1 as [_ H1]. rewrite H1, H2. reflexivity. Qed.

Lemma normalize_idem : forall s n, normalize_name s = Ok n -> normalize_name n = Ok n.
Proof.
  intros s n H. unfold normalize_name in H. set (m := sub_runs invalid_char "-" false s) in *.
  destruct (strip_ends "-" m) as [E|(x & r & y & t & E1 & E2 & EX & EY)]; [rewrite E in H; discriminate|].
  rewrite E1 in H. injection H as <-. destruct (strip_sub "-" m) as (a & b & EM). rewrite E1 in EM.
  assert (NR : no_runs invalid_char "-" false (x :: r) = true).
  { pose proof (sub_runs_no_runs invalid_char "-" s false eq_refl) as N. fold m in N. rewrite EM in N. apply no_runs_app in N. destruct N as (b' & N). apply no_runs_prefix in N. apply no_runs_weak in N. exact N. }
  unfold normalize_name. rewrite (sub_runs_id _ _ _ _ NR). rewrite (strip_id "-" x r y t); [reflexivity| |exact EX|exact EY]. congruence.
Qed.
Lemma key_chars : forall c, invalid_char (lower_char (to_underscore c)) = invalid_char c && negb (Ascii.eqb c "-").
Proof. intro c. by_char c. Qed.
Lemma sub_runs_in : forall bad rep s b d, In d (sub_runs bad rep b s) -> bad d = false \/ d = rep.
Proof.
  intros bad rep s. induction s as [|c s IH]; intros b d IM; [contradiction|]. cbn [sub_runs] in IM.
  destruct (bad c) eqn:E; [destruct b; [exact (IH _ _ IM)|destruct IM as [<-|IM]; [right; reflexivity|exact (IH _ _ IM)]]|destruct IM as [<-|IM]; [left; exact E|exact (IH _ _ IM)]].
Qed.
Lemma key_idem : forall s k, package_name_key s = Ok k -> package_name_key k = Ok k.
Proof.
  intros s k H. unfold package_name_key, normalize_src_package_name in H. destruct (normalize_name s) as [n|e] eqn:EN; [|discriminate]. cbn [bind] in H. injection H as <-.
  set (k := lower (map to_underscore n)).
  assert (NB : forall c, In c k -> invalid_char c = false /\ to_underscore c = c /\ lower_char c = c).
  { intros c I. subst k. unfold lower in I. rewrite map_map in I. apply in_map_iff in I. destruct I as (d & <- & I).
    assert (VD : invalid_char d = false \/ d = "-"%char).
    { unfold normalize_name in EN. set (m := sub_runs invalid_char "-" false s) in *. destruct (strip_sub "-" m) as (a & b & EM). destruct (strip "-" m) as [|x r]; [discriminate|]. injection EN as <-.
      assert (IM : In d m) by (rewrite EM; apply in_app_iff; right; apply in_app_iff; left; exact I). exact (sub_runs_in _ _ _ _ _ IM). }
    destruct VD as [VD| ->]; [|repeat split; reflexivity]. revert VD. clear. by_char d; intros; repeat split; reflexivity. }
  assert (SR : sub_runs invalid_char "-" false k = k).
  { apply sub_runs_id. clearbody k. clear EN. induction k as [|c k IH]; [reflexivity|]. cbn [no_runs]. rewrite (proj1 (NB c (or_introl eq_refl))). apply IH. intros d I. apply NB. right. exact I. }
  assert (ND : forall c, In c k -> Ascii.eqb c "-" = false).
  { intros c I. destruct (Ascii.eqb c "-") eqn:E; [|reflexivity]. apply Ascii.eqb_eq in E. subst c. destruct (NB _ I) as [X _]. discriminate. }
  assert (NE : k <> []).
  { subst k. unfold normalize_name in EN. destruct (strip "-" _); [discriminate|]. injection EN as <-. discriminate. }
  unfold package_name_key, normalize_src_package_name, normalize_name. rewrite SR. destruct (exists_last NE) as (t & y & ET).
  destruct k as [|x r] eqn:EK; [congruence|]. rewrite (strip_id "-" x r y t ET); [|apply ND; left; reflexivity|apply ND; rewrite ET; apply in_app_iff; right; left; reflexivity].
  cbn [bind]. f_equal. unfold lower. rewrite map_map. rewrite <- (map_id (x :: r)) at 2. apply map_ext_in. intros c I. destruct (NB c I) as (_ & A & B). rewrite A, B. reflexivity.
Qed.

(** valid names *)
Lemma sub_runs_last : forall bad rep s b r c, s = r ++ [c] -> bad c = false -> exists t, sub_runs bad rep b s = t ++ [c].
Proof.
  intros bad rep s b r c -> HC. revert b. induction r as [|x r IH]; intro b; cbn [app sub_runs].
  - rewrite HC. exists []. reflexivity.
  - destruct (bad x); [destruct b|].
    + apply IH.
    + destruct (IH true) as (t & ->). exists (rep :: t). reflexivity.
    + destruct (IH false) as (t & ->). exists (x :: t). reflexivity.
Qed.
Lemma valid_normal : forall s, valid_name s -> normalize_name s = Ok (sub_runs invalid_char "-" false s).
Proof.
  intros s [VC (c & r & E & A) (d & t & E2 & A2)]. unfold normalize_name.
  assert (IC : invalid_char c = false) by (rewrite invalid_valid; [apply alnum_not_dash, A|rewrite A; reflexivity]).
  assert (ID : invalid_char d = false) by (rewrite invalid_valid; [apply alnum_not_dash, A2|rewrite A2; reflexivity]).
  destruct (sub_runs_last invalid_char "-" s false t d E2 ID) as (u & EU). rewrite E in *. cbn [sub_runs] in *. rewrite IC in *.
  rewrite (strip_id "-" c _ d u EU); [reflexivity|apply alnum_not_dash, A|apply alnum_not_dash, A2].
Qed.
Definition keyc (c : ascii) : ascii := lower_char (to_underscore c).
Lemma valid_key : forall s, valid_name s -> package_name_key s = Ok (map keyc (sub_runs invalid_char "-" false s)).
Proof. intros s V. unfold package_name_key, normalize_src_package_name. rewrite (valid_normal s V). cbn [bind]. unfold lower. rewrite map_map. reflexivity. Qed.
(** the PEP 503 name is a function of the key *)
Definition is_us (c : ascii) : bool := Ascii.eqb c "_".
Lemma pep_of_key : forall s b b2, forallb (fun c => is_alnum c || is_sep c) s = true -> (b = true -> b2 = true) ->
  sub_runs is_us "-" b2 (map keyc (sub_runs invalid_char "-" b s)) = lower (sub_runs is_sep "-" b2 s).
Proof.
  intro s. induction s as [|c s IH]; intros b b2 V HB; [reflexivity|]. cbn [forallb] in V. apply andb_true_iff in V. destruct V as [VC V]. cbn [sub_runs]. rewrite (invalid_valid c VC).
  destruct (Ascii.eqb c "-") eqn:ED.
  - apply Ascii.eqb_eq in ED. subst c. change (is_sep "-") with true. destruct b.
    + rewrite (HB eq_refl). apply IH; auto.
    + change (map keyc ("-"%char :: sub_runs invalid_char "-" true s)) with ("_"%char :: map keyc (sub_runs invalid_char "-" true s)). cbn [sub_runs]. change (is_us "_") with true.
      destruct b2; [apply IH; auto|]. change (lower ("-"%char :: sub_runs is_sep "-" true s)) with ("-"%char :: lower (sub_runs is_sep "-" true s)). rewrite (IH true true V) by auto. reflexivity.
  - cbn [map sub_runs]. assert (X : is_us (keyc c) = is_sep c) by (revert VC ED; clear; by_char c).
    rewrite X. destruct (is_sep c) eqn:ES.
    + destruct b2; [apply IH; [exact V|discriminate]|]. change (lower ("-"%char :: sub_runs is_sep "-" true s)) with ("-"%char :: lower (sub_runs is_sep "-" true s)). rewrite (IH false true V) by discriminate. reflexivity.
    + assert (Y : keyc c = lower_char c) by (revert ES; clear; by_char c). rewrite Y. cbn [lower map]. f_equal. apply IH; [exact V|discriminate].
Qed.
Lemma key_sound : forall a b k, valid_name a -> valid_name b -> package_name_key a = Ok k -> package_name_key b = Ok k -> pep503 a = pep503 b.
Proof.
  intros a b k VA VB KA KB. rewrite valid_key in KA by exact VA. rewrite valid_key in KB by exact VB. unfold pep503.
  rewrite <- (pep_of_key a false false (v_chars _ VA)) by discriminate. rewrite <- (pep_of_key b false false (v_chars _ VB)) by discriminate. congruence.
Qed.
(** no two separators in a row: the key is the name with each separator replaced *)
Lemma single_step : forall a b r, single_seps (a :: b :: r) = negb (is_sep a && is_sep b) && single_seps (b :: r).
Proof. reflexivity. Qed.
Lemma single_sub : forall (bad : ascii -> bool) rep s, (forall c, bad c = true -> is_sep c = true) -> single_seps s = true ->
  sub_runs bad rep false s = map (fun c => if bad c then rep else c) s.
Proof.
  intros bad rep s HB. induction s as [|a s IH]; intro H; [reflexivity|].
  assert (HS : single_seps s = true) by (destruct s as [|b r]; [reflexivity|]; rewrite single_step in H; apply andb_true_iff in H; apply H).
  cbn [sub_runs map]. destruct (bad a) eqn:EA; [|rewrite IH by exact HS; reflexivity]. f_equal. rewrite <- IH by exact HS.
  destruct s as [|b r]; [reflexivity|]. rewrite single_step in H. apply andb_true_iff in H. destruct H as [H _]. cbn [sub_runs]. destruct (bad b) eqn:EB; [|reflexivity].
  rewrite (HB a EA), (HB b EB) in H. discriminate.
Qed.
Lemma key_complete : forall a b, valid_name a -> valid_name b -> single_seps a = true -> single_seps b = true -> pep503 a = pep503 b -> package_name_key a = package_name_key b.
Proof.
  intros a b VA VB SA SB E. unfold pep503 in E. rewrite !(single_sub is_sep) in E by auto. rewrite !valid_key by assumption. 
  assert (X : forall s, valid_name s -> single_seps s = true -> map keyc (sub_runs invalid_char "-" false s) = map (fun c => if Ascii.eqb c "-" then "_"%char else c) (lower (map (fun c => if is_sep c then "-"%char else c) s))).
  { intros s V S.
    assert (EQ : sub_runs invalid_char "-" false s = sub_runs (fun c => Ascii.eqb c "-") "-" false s).
    { pose proof (v_chars _ V) as VC. clear -VC. revert VC. set (d := "-"%char). generalize false as b. induction s as [|c s IH]; intros b VC; [reflexivity|]. cbn [forallb] in VC. apply andb_true_iff in VC. destruct VC as [V1 V2].
      cbn [sub_runs]. rewrite (invalid_valid c V1). fold d. destruct (Ascii.eqb c d); [destruct b|]; rewrite ?IH by exact V2; reflexivity. }
    rewrite EQ, single_sub; [|intros c H; apply Ascii.eqb_eq in H; subst; reflexivity|exact S]. unfold lower. rewrite !map_map. apply map_ext_in. intros c I. pose proof (proj1 (forallb_forall _ _) (v_chars _ V) c I) as VC. revert VC. clear. by_char c. }
  f_equal. rewrite !X by assumption. rewrite E. reflexivity.
Qed.
