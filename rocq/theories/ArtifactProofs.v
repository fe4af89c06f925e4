From Coq Require Import String Ascii List Bool NArith Arith Lia.
From Verif Require Import Base BaseFacts ArtifactModel.
Import ListNotations.
Open Scope nat_scope.
Open Scope list_scope.
Open Scope bool_scope.

Definition allowed (a : artifact) : bool := match a_requires a with NoReq | Allows => true | _ => false end.
(** usable wheel with its score *)
Definition wheel_score (score : str -> option N) (a : artifact) : option N :=
  if allowed a && is_binary a then score (tags_of (a_file a)) else None.
Definition usable_source (a : artifact) : bool := allowed a && negb (is_binary a).

Record cinv (score : str -> option N) (seen : list artifact) (c : choice) : Prop := {
  ci_bin : forall a s, c_binary c = Some (a, s) -> In a seen /\ wheel_score score a = Some s /\ forall b t, In b seen -> wheel_score score b = Some t -> (t <= s)%N;
  ci_nobin : c_binary c = None -> forall b, In b seen -> wheel_score score b = None;
  ci_src : forall a, c_source c = Some a -> In a seen /\ usable_source a = true;
  ci_nosrc : c_source c = None -> forall b, In b seen -> usable_source b = false }.
Lemma cinv_step : forall score seen c a, cinv score seen c -> cinv score (seen ++ [a]) (consider score c a).
Proof.
  intros score seen c a [B NB SR NS].
  assert (SN : forall P : artifact -> Prop, (forall b, In b seen -> P b) -> P a -> forall b, In b (seen ++ [a]) -> P b).
  { intros P H1 H2 b I. apply in_app_iff in I. destruct I as [I|[<-|[]]]; auto. }
  assert (IL : forall b, In b seen -> In b (seen ++ [a])) by (intros; apply in_app_iff; auto).
  assert (IA : In a (seen ++ [a])) by (apply in_app_iff; right; left; reflexivity).
  assert (KEEP : wheel_score score a = None -> usable_source a = false -> cinv score (seen ++ [a]) c).
  { intros W U. constructor.
    - intros b s E. destruct (B b s E) as (I & WS & M). split; [auto|]. split; [exact WS|]. intros d t I2 W2. revert d I2 W2. apply (SN (fun d => wheel_score score d = Some t -> (t <= s)%N)); [intros; eapply M; eassumption|congruence].
    - intro E. apply SN; [exact (NB E)|exact W].
    - intros b E. destruct (SR b E). auto.
    - intro E. apply SN; [exact (NS E)|exact U]. }
  unfold consider. destruct (a_requires a) eqn:ER.
  3,4: apply KEEP; unfold wheel_score, usable_source, allowed; rewrite ER; reflexivity.
  all: assert (AL : allowed a = true) by (unfold allowed; rewrite ER; reflexivity); destruct (is_binary a) eqn:EB.
  1,3: assert (US : usable_source a = false) by (unfold usable_source; rewrite AL, EB; reflexivity); destruct (score (tags_of (a_file a))) as [s|] eqn:ES;
    assert (WS : wheel_score score a = score (tags_of (a_file a))) by (unfold wheel_score; rewrite AL, EB; reflexivity); rewrite ES in WS.
  2,4: apply KEEP; assumption.
  1,2: destruct (c_binary c) as [[b best]|] eqn:ECB.
  1,3: destruct (best <? s)%N eqn:EL.
  - apply N.ltb_lt in EL. constructor; cbn [c_binary c_source].
    + intros x t E. injection E as <- <-. split; [exact IA|]. split; [exact WS|]. intros d t I2 W2. revert d I2 W2. apply (SN (fun d => wheel_score score d = Some t -> (t <= s)%N)); [|intro X; rewrite WS in X; injection X as <-; lia].
      intros d I W. destruct (B b best eq_refl) as (_ & _ & M). specialize (M d t I W). lia.
    + discriminate.
    + intros x E. destruct (SR x E). auto.
    + intro E. apply SN; [exact (NS E)|exact US].
  - apply N.ltb_ge in EL. constructor.
    + intros x t E. rewrite ECB in E. injection E as <- <-. destruct (B b best eq_refl) as (I & W & M). split; [auto|]. split; [exact W|]. intros d t I2 W2. revert d I2 W2. apply (SN (fun d => wheel_score score d = Some t -> (t <= best)%N)); [intros; eapply M; eassumption|].
      intro X. rewrite WS in X. injection X as <-. exact EL.
    + congruence.
    + intros x E. destruct (SR x E). auto.
    + intro E. apply SN; [exact (NS E)|exact US].
  - apply N.ltb_lt in EL. constructor; cbn [c_binary c_source].
    + intros x t E. injection E as <- <-. split; [exact IA|]. split; [exact WS|]. intros d t I2 W2. revert d I2 W2. apply (SN (fun d => wheel_score score d = Some t -> (t <= s)%N)); [|intro X; rewrite WS in X; injection X as <-; lia].
      intros d I W. destruct (B b best eq_refl) as (_ & _ & M). specialize (M d t I W). lia.
    + discriminate.
    + intros x E. destruct (SR x E). auto.
    + intro E. apply SN; [exact (NS E)|exact US].
  - apply N.ltb_ge in EL. constructor.
    + intros x t E. rewrite ECB in E. injection E as <- <-. destruct (B b best eq_refl) as (I & W & M). split; [auto|]. split; [exact W|]. intros d t I2 W2. revert d I2 W2. apply (SN (fun d => wheel_score score d = Some t -> (t <= best)%N)); [intros; eapply M; eassumption|].
      intro X. rewrite WS in X. injection X as <-. exact EL.
    + congruence.
    + intros x E. destruct (SR x E). auto.
    + intro E. apply SN; [exact (NS E)|exact US].
  - constructor; cbn [c_binary c_source].
    + intros x t E. injection E as <- <-. split; [exact IA|]. split; [exact WS|]. intros d t I2 W2. revert d I2 W2. apply (SN (fun d => wheel_score score d = Some t -> (t <= s)%N)); [|intro X; rewrite WS in X; injection X as <-; lia].
      intros d I W. rewrite (NB eq_refl d I) in W. discriminate.
    + discriminate.
    + intros x E. destruct (SR x E). auto.
    + intro E. apply SN; [exact (NS E)|exact US].
  - constructor; cbn [c_binary c_source].
    + intros x t E. injection E as <- <-. split; [exact IA|]. split; [exact WS|]. intros d t I2 W2. revert d I2 W2. apply (SN (fun d => wheel_score score d = Some t -> (t <= s)%N)); [|intro X; rewrite WS in X; injection X as <-; lia].
      intros d I W. rewrite (NB eq_refl d I) in W. discriminate.
    + discriminate.
    + intros x E. destruct (SR x E). auto.
    + intro E. apply SN; [exact (NS E)|exact US].
  - assert (WS : wheel_score score a = None) by (unfold wheel_score; rewrite AL, EB; reflexivity). constructor; cbn [c_binary c_source].
    + intros b s E. destruct (B b s E) as (I & W & M). split; [auto|]. split; [exact W|]. intros d t I2 W2. revert d I2 W2. apply (SN (fun d => wheel_score score d = Some t -> (t <= s)%N)); [intros; eapply M; eassumption|congruence].
    + intro E. apply SN; [exact (NB E)|exact WS].
    + intros b E. injection E as <-. split; [exact IA|]. unfold usable_source. rewrite AL, EB. reflexivity.
    + discriminate.
  - assert (WS : wheel_score score a = None) by (unfold wheel_score; rewrite AL, EB; reflexivity). constructor; cbn [c_binary c_source].
    + intros b s E. destruct (B b s E) as (I & W & M). split; [auto|]. split; [exact W|]. intros d t I2 W2. revert d I2 W2. apply (SN (fun d => wheel_score score d = Some t -> (t <= s)%N)); [intros; eapply M; eassumption|congruence].
    + intro E. apply SN; [exact (NB E)|exact WS].
    + intros b E. injection E as <-. split; [exact IA|]. unfold usable_source. rewrite AL, EB. reflexivity.
    + discriminate.
Qed.
Lemma cinv_all : forall score rest seen c, cinv score seen c -> cinv score (seen ++ rest) (fold_left (consider score) rest c).
Proof.
  intros score rest. induction rest as [|a rest IH]; intros seen c V; [rewrite app_nil_r; exact V|]. cbn [fold_left].
  replace (seen ++ a :: rest) with ((seen ++ [a]) ++ rest) by (rewrite <- app_assoc; reflexivity). apply IH, cinv_step, V.
Qed.
Lemma cinv_final : forall score artifacts, cinv score artifacts (fold_left (consider score) artifacts (Choice None None)).
Proof.
  intros score artifacts. apply (cinv_all score artifacts []). constructor; cbn; try discriminate; intros; contradiction.
Qed.

(** ** Wheels *)
Lemma verify_files_ok : forall h w rs files, verify_files h w rs files = Ok tt -> forall f, In f files -> verify_file h w rs f = Ok tt.
Proof.
  intros h w rs files. induction files as [|g files IH]; intros H f I; [contradiction|]. cbn [verify_files] in H. destruct (verify_file h w rs g) as [[]|e] eqn:E; [|discriminate].
  destruct I as [<-|I]; [exact E|exact (IH H f I)].
Qed.
Lemma verify_files_conv : forall h w rs files, (forall f, In f files -> verify_file h w rs f = Ok tt) -> verify_files h w rs files = Ok tt.
Proof.
  intros h w rs files. induction files as [|g files IH]; intro H; [reflexivity|]. cbn [verify_files]. rewrite (H g (or_introl eq_refl)). apply IH. intros f I. apply H. right. exact I.
Qed.
Lemma dict_of_last : forall V (l : list (str * V)) d k, dict_get k (fold_left (fun d e => dict_set (fst e) (snd e) d) l d) =
  match find (fun e => str_eqb k (fst e)) (rev l) with Some e => Some (snd e) | None => dict_get k d end.
Proof.
  intros V l. induction l as [|e l IH]; intros d k; [reflexivity|]. cbn [fold_left rev]. rewrite IH.
  assert (F : forall (a b : list (str * V)) P, find P (a ++ b) = match find P a with Some x => Some x | None => find P b end).
  { intros a b P. induction a as [|x a IHa]; [reflexivity|]. cbn. destruct (P x); [reflexivity|exact IHa]. }
  rewrite F. destruct (find _ (rev l)); [reflexivity|]. cbn [find]. destruct (str_eqb k (fst e)) eqn:E.
  - apply str_eqb_eq in E. subst k. apply dict_get_set_same.
  - apply dict_get_set_other. apply str_eqb_neq. exact E.
Qed.
Lemma precomputed_last : forall rs k s, dict_get k (dict_of rs) = Some (Some s) -> dict_get k (precomputed_hashes rs) = Some s.
Proof.
  intros rs k s H. unfold precomputed_hashes. unfold dict_of in *. rewrite dict_of_last in *. cbn [dict_get] in *.
  induction rs as [|e rs IH] using rev_ind; [discriminate|]. rewrite rev_app_distr in H. cbn [rev app find] in H. rewrite flat_map_app, rev_app_distr.
  destruct (str_eqb k (fst e)) eqn:E.
  - injection H as H. cbn [flat_map]. rewrite H. cbn. rewrite E. reflexivity.
  - cbn [flat_map]. destruct (snd e) as [t|]; cbn [app rev find]; [cbn [fst]; rewrite E|]; apply IH; exact H.
Qed.
Lemma installed_entries : forall h w extra old st, install_wheel h w extra old = Ok st ->
  (forall f s, In f (w_files w) -> in_dist_info (fst f) = true -> dict_get (fst f) (dict_of (opt_or (w_records w) [])) = Some (Some s) -> validate_against h s (snd f) = Ok true) ->
  forall f, In f (w_files w) -> fst f <> record_path w -> exists s, In (fst f, Some s) (st_record st) /\ validate_against h s (snd f) = Ok true.
Proof.
  intros h w extra old st H HD f I NR. unfold install_wheel in H. destruct (verify_records h w) as [[]|e] eqn:EV; [|discriminate]. cbn [bind] in H. injection H as <-. cbn [st_record].
  unfold verify_records in EV. destruct (w_records w) as [rs|]; [|discriminate]. cbn [opt_or] in *. pose proof (verify_files_ok _ _ _ _ EV f I) as VF. unfold verify_file in VF.
  assert (NR' : str_eqb (fst f) (record_path w) = false) by (apply str_eqb_neq; exact NR).
  destruct (dict_get (fst f) (dict_of rs)) as [[s|]|] eqn:EG; [|rewrite NR' in VF; discriminate|rewrite NR' in VF; discriminate].
  exists s. split.
  - apply in_map_iff. exists f. split.
    + unfold sign_file. rewrite (precomputed_last rs (fst f) s EG). reflexivity.
    + apply filter_In. split; [exact I|]. rewrite NR'. reflexivity.
  - destruct (validate_against h s (snd f)) as [[|]|e] eqn:EA; [reflexivity| |discriminate]. cbn [bind] in VF. destruct (in_dist_info (fst f)) eqn:ED; [|discriminate].
    rewrite <- EA. exact (HD f s I ED EG).
Qed.
