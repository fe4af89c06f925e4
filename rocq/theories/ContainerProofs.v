(** Facts about ContainerModel *)
From Coq Require Import List Bool NArith Ascii String Arith Lia.
From Verif Require Import Base BaseFacts CollectionModel CollectionProofs NamesModel NamesProofs VersionModel SpecifierModel InstallProofs ContainerModel.
Import ListNotations.
Open Scope string_scope. Open Scope nat_scope. Open Scope list_scope. Open Scope bool_scope.

(** ** names *)
Lemma sub_runs_app : forall bad rep s t b r c, s = r ++ [c] -> bad c = false -> sub_runs bad rep b (s ++ t) = sub_runs bad rep b s ++ sub_runs bad rep false t.
Proof.
  intros bad rep s t b r c -> HC. revert b. induction r as [|x r IH]; intros b; cbn [app sub_runs].
  - rewrite HC. reflexivity.
  - destruct (bad x); [destruct b|]; cbn [app]; rewrite IH; reflexivity.
Qed.
Lemma valid_suffix : forall s, valid_name s -> valid_name (s ++ wrapper_suffix).
Proof.
  intros s [C (c & r & E & A) _]. split.
  - rewrite forallb_app, C. reflexivity.
  - exists c, (r ++ wrapper_suffix). rewrite E. split; [reflexivity|exact A].
  - exists "d"%char, (s ++ lit "_containerize"). rewrite <- app_assoc. split; reflexivity.
Qed.
Lemma suffix_normal : forall s, valid_name s -> sub_runs invalid_char "-" false (s ++ wrapper_suffix) = sub_runs invalid_char "-" false s ++ wrapper_suffix.
Proof.
  intros s [_ _ (c & r & E & A)]. assert (IC : invalid_char c = false) by (rewrite invalid_valid; [apply alnum_not_dash, A|rewrite A; reflexivity]).
  rewrite (sub_runs_app _ _ s _ _ r c E IC). reflexivity.
Qed.
Lemma suffix_key : forall s k, valid_name s -> package_name_key s = Ok k -> package_name_key (s ++ wrapper_suffix) = Ok (k ++ wrapper_suffix).
Proof.
  intros s k V K. rewrite valid_key in K by exact V. injection K as <-. rewrite valid_key by (apply valid_suffix, V). rewrite suffix_normal by exact V. rewrite map_app. reflexivity.
Qed.
Lemma single_normal : forall s, valid_name s -> single_seps s = true -> sub_runs invalid_char "-" false s = s.
Proof.
  intros s V S.
  assert (EQ : sub_runs invalid_char "-" false s = sub_runs (fun c => Ascii.eqb c "-") "-" false s).
  { pose proof (v_chars _ V) as VC. clear -VC. revert VC. set (d := "-"%char). generalize false as b. induction s as [|c s IH]; intros b VC; [reflexivity|]. cbn [forallb] in VC. apply andb_true_iff in VC. destruct VC as [V1 V2].
    cbn [sub_runs]. rewrite (invalid_valid c V1). fold d. destruct (Ascii.eqb c d); [destruct b|]; rewrite ?IH by exact V2; reflexivity. }
  rewrite EQ, single_sub; [|intros c H; apply Ascii.eqb_eq in H; subst; reflexivity|exact S]. rewrite <- (map_id s) at 2. apply map_ext. intros c. destruct (Ascii.eqb c "-") eqn:E; [apply Ascii.eqb_eq in E; congruence|reflexivity].
Qed.
Definition dashed (s : str) : str := map (fun c => if Ascii.eqb c "_" then "-"%char else c) s.
Lemma dashed_valid : forall s, valid_name s -> valid_name (dashed s).
Proof.
  intros s [C (c & r & E & A) (d & t & E2 & A2)]. unfold dashed. split.
  - apply forallb_forall. intros x I. apply in_map_iff in I as (y & <- & I). pose proof (proj1 (forallb_forall _ _) C y I) as Y. destruct (Ascii.eqb y "_"); [reflexivity|exact Y].
  - subst s. exists c, (dashed r). cbn [map]. split; [|exact A]. f_equal. revert A. clear. by_char c.
  - subst s. rewrite E2. exists d, (dashed t). unfold dashed. rewrite map_app. cbn [map]. split; [|exact A2]. f_equal. f_equal. revert A2. clear. by_char d.
Qed.
Lemma dashed_single : forall s, single_seps s = true -> single_seps (dashed s) = true.
Proof.
  intros s. induction s as [|a [|b s] IH]; intros H; [reflexivity|reflexivity|]. rewrite single_step in H. apply andb_true_iff in H as [H1 H2].
  unfold dashed in *. cbn [map] in *. rewrite single_step. rewrite (IH H2), andb_true_r.
  assert (X : forall c, is_sep (if Ascii.eqb c "_" then "-"%char else c) = is_sep c) by (intros c; by_char c). rewrite !X. exact H1.
Qed.
Lemma dashed_key : forall s, valid_name s -> single_seps s = true -> package_name_key (dashed s) = package_name_key s.
Proof.
  intros s V S. rewrite !valid_key by (try apply dashed_valid; exact V). rewrite !single_normal by (try apply dashed_valid; try apply dashed_single; assumption).
  f_equal. unfold dashed. rewrite map_map. apply map_ext. intros c. by_char c.
Qed.

(** ** what is installed *)
Definition distinct_keys (site : list ipkg) : Prop := NoDup (map i_key site).
Lemma find_key : forall site p k, distinct_keys site -> In p site -> i_key p = k -> find (fun q => str_eqb (i_key q) k) site = Some p.
Proof.
  intros site p k. unfold distinct_keys. induction site as [|q site IH]; intros D I E; [destruct I|]. cbn in *. inversion D; subst. destruct (str_eqb (i_key q) (i_key p)) eqn:Q.
  - apply str_eqb_eq in Q. destruct I as [->|I]; [reflexivity|]. exfalso. apply H1. rewrite Q. apply in_map. exact I.
  - destruct I as [->|I]; [rewrite str_eqb_refl in Q; discriminate|]. apply IH; auto.
Qed.
Lemma find_none_key : forall site k, (forall p, In p site -> i_key p <> k) -> find (fun q => str_eqb (i_key q) k) site = None.
Proof. intros site k H. induction site as [|q site IH]; [reflexivity|]. cbn. destruct (str_eqb (i_key q) k) eqn:Q; [apply str_eqb_eq in Q; exfalso; apply (H q (or_introl eq_refl) Q)|]. apply IH. intros p I. apply H. right. exact I. Qed.

(** ** scripts *)
Lemma funcs_spec : forall l, (forall s, In s l -> exists n, normalize_src_package_name (s_name s) = Ok n) ->
  exists defs, define_epfuncs l = Ok defs /\ forall d, In d defs <-> exists s, In s l /\ normalize_src_package_name (s_name s) = Ok (fst d) /\ snd d = (s_module s, s_object s).
Proof.
  induction l as [|s l IH]; intros H.
  - exists []. split; [reflexivity|]. intros d. split; [intros []|intros (s & [] & _)].
  - destruct (H s (or_introl eq_refl)) as (n & N). destruct IH as (defs & E & K); [intros x I; apply H; right; exact I|]. exists ((n, (s_module s, s_object s)) :: defs). cbn [define_epfuncs]. rewrite N, E. split; [reflexivity|].
    intros d. cbn [In]. rewrite K. split.
    + intros [<-|(x & I & X)]; [exists s; split; [left; reflexivity|split; [exact N|reflexivity]]|exists x; split; [right; exact I|exact X]].
    + intros (x & [<-|I] & X & Y); [left; destruct d; cbn in *; congruence|right; exists x; auto].
Qed.
Lemma fold_set_get : forall defs (ns : list (str * (str * str))) k v, (forall d, In d defs -> fst d = k -> snd d = v) ->
  (exists d, In d defs /\ fst d = k) \/ dict_get k ns = Some v -> dict_get k (fold_left (fun ns d => dict_set (fst d) (snd d) ns) defs ns) = Some v.
Proof.
  induction defs as [|d defs IH]; intros ns k v H E; cbn [fold_left].
  - destruct E as [(d & [] & _)|E]; exact E.
  - apply IH; [intros x I; apply H; right; exact I|]. destruct (str_eqb (fst d) k) eqn:Q.
    + apply str_eqb_eq in Q. right. rewrite (H d (or_introl eq_refl) Q), Q. apply dict_get_set_same.
    + apply str_eqb_neq in Q. destruct E as [(x & [->|I] & X)|E]; [contradiction|left; exists x; auto|]. right. rewrite dict_get_set_other by congruence. exact E.
Qed.

(** ** sys.path *)
Lemma last_second_snoc : forall x l y, last_second (x :: l ++ [y]) = Ok (x :: y :: l).
Proof.
  intros x l y. unfold last_second. change (x :: l ++ [y]) with ((x :: l) ++ [y]). rewrite rev_app_distr. cbn [rev app]. rewrite rev_app_distr. cbn [rev app]. rewrite rev_involutive. reflexivity.
Qed.
Lemma add_new : forall ds p, NoDup (p ++ ds) -> fold_left (fun p d => add_path d p) ds p = p ++ ds.
Proof.
  induction ds as [|d ds IH]; intros p N; cbn [fold_left]; [rewrite app_nil_r; reflexivity|]. unfold add_path at 2.
  assert (M : str_mem d p = false). { destruct (str_mem d p) eqn:M; [|reflexivity]. exfalso. apply str_mem_iff in M. apply NoDup_remove_2 in N. apply N. apply in_or_app. left. exact M. }
  rewrite M, IH; rewrite <- app_assoc; [reflexivity|exact N].
Qed.
