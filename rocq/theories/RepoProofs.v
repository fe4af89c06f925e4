From Coq Require Import String Ascii List Bool NArith Arith Lia.
From Verif Require Import Base BaseFacts NamesModel RepoModel.
Import ListNotations.
Open Scope string_scope.
Open Scope nat_scope.
Open Scope list_scope.
Open Scope bool_scope.

Lemma mem_iff : forall x l, str_mem x l = true <-> In x l.
Proof.
  intros x l. unfold str_mem. rewrite existsb_exists. split.
  - intros [y [I E]]. apply str_eqb_eq in E. subst. exact I.
  - intro I. exists x. split; [exact I|apply str_eqb_refl].
Qed.
Lemma mem_false : forall x l, str_mem x l = false <-> ~ In x l.
Proof. intros x l. rewrite <- mem_iff. destruct (str_mem x l); split; intro H; congruence. Qed.

(** ** what every repository does to its answers *)
Definition lawful (r : repo) : Prop := forall d l, r_match r d = Ok l -> filter_prereleases d (filter p_fits_env l) = l.
Lemma filter_id : forall A (f : A -> bool) l, (forall x, In x l -> f x = true) -> filter f l = l.
Proof.
  induction l as [|x l IH]; intro H; [reflexivity|]. cbn [filter]. rewrite (H x (or_introl eq_refl)). f_equal. apply IH. intros y I. apply H. right. exact I.
Qed.
Lemma pre_sub : forall d l p, In p (filter_prereleases d l) -> In p l.
Proof.
  intros d l p I. unfold filter_prereleases in I. destruct (d_pre d); [exact I|]. destruct (filter (fun p => negb (p_pre p)) l) eqn:E; [exact I|].
  rewrite <- E in I. apply filter_In in I. apply I.
Qed.
Lemma pre_idem : forall d l, filter_prereleases d (filter_prereleases d l) = filter_prereleases d l.
Proof.
  intros d l. unfold filter_prereleases. destruct (d_pre d); [reflexivity|]. destruct (filter (fun p => negb (p_pre p)) l) as [|x r] eqn:E.
  - rewrite E. reflexivity.
  - rewrite <- E. rewrite (filter_id _ _ (filter (fun p => negb (p_pre p)) l)) by (intros y I; apply filter_In in I; apply I). rewrite E. reflexivity.
Qed.
Lemma abstract_lawful : forall n pl pr f, lawful (Repo n pl pr (abstract_match f)).
Proof.
  intros n pl pr f d l H. cbn [r_match] in H. unfold abstract_match, bind in H. destruct (f d) as [x|]; [|discriminate]. injection H as <-.
  rewrite (filter_id _ p_fits_env).
  - apply pre_idem.
  - intros p I. apply pre_sub in I. apply filter_In in I. apply I.
Qed.
Lemma composite_lawful : forall n s b k, lawful (composite n s b k).
Proof. intros. apply abstract_lawful. Qed.

(** ** the first answer *)
Lemma first_answer_iff : forall (P : repo -> bool) d search o, first_answer d (filter P search) = Ok o <->
  match o with
  | None => forall r, In r search -> P r = true -> r_match r d = Ok []
  | Some l => l <> [] /\ exists before r after, search = before ++ r :: after /\ (forall b, In b before -> P b = true -> r_match b d = Ok []) /\
                P r = true /\ r_match r d = Ok l
  end.
Proof.
  intros P d search. induction search as [|x search IH]; intros o; cbn [filter].
  - cbn [first_answer]. split.
    + intro H. injection H as <-. intros r [].
    + destruct o as [l|]; [|reflexivity]. intros [_ [b [r [a [E _]]]]]. destruct b; discriminate.
  - destruct (P x) eqn:PX.
    + cbn [first_answer]. unfold bind. destruct (r_match x d) as [m|e] eqn:M.
      * destruct m as [|y m].
        -- rewrite IH. destruct o as [l|].
           ++ split; intros [N H]; (split; [exact N|]).
              ** destruct H as [b [r [a [-> [B [PR R]]]]]]. exists (x :: b), r, a. split; [reflexivity|]. split; [|auto]. intros z [<-|I] Z; [exact M|]. apply B; assumption.
              ** destruct H as [b [r [a [E [B [PR R]]]]]]. destruct b as [|b0 b].
                 --- injection E as <- ->. rewrite M in R. injection R as <-. contradiction.
                 --- injection E as <- ->. exists b, r, a. split; [reflexivity|]. split; [|auto]. intros z I Z. apply B; [right; exact I|exact Z].
           ++ split; intro H.
              ** intros r [<-|I] Z; [exact M|]. apply H; assumption.
              ** intros r I Z. apply H; [right; exact I|exact Z].
        -- split.
           ++ intro H. injection H as <-. split; [discriminate|]. exists [], x, search. split; [reflexivity|]. split; [intros b []|]. auto.
           ++ destruct o as [l|].
              ** intros [N [b [r [a [E [B [PR R]]]]]]]. destruct b as [|b0 b].
                 --- injection E as <- _. rewrite M in R. injection R as <-. reflexivity.
                 --- injection E as <- _. rewrite (B _ (or_introl eq_refl) PX) in M. discriminate.
              ** intro H. rewrite (H x (or_introl eq_refl) PX) in M. discriminate.
      * split; [discriminate|]. destruct o as [l|].
        -- intros [N [b [r [a [E [B [PR R]]]]]]]. destruct b as [|b0 b].
           ++ injection E as <- _. rewrite M in R. discriminate.
           ++ injection E as <- _. rewrite (B _ (or_introl eq_refl) PX) in M. discriminate.
        -- intro H. rewrite (H x (or_introl eq_refl) PX) in M. discriminate.
    + rewrite IH. destruct o as [l|].
      * split; intros [N H]; (split; [exact N|]).
        -- destruct H as [b [r [a [-> [B [PR R]]]]]]. exists (x :: b), r, a. split; [reflexivity|]. split; [|auto]. intros z [<-|I] Z; [congruence|]. apply B; assumption.
        -- destruct H as [b [r [a [E [B [PR R]]]]]]. destruct b as [|b0 b].
           ++ injection E as <- ->. congruence.
           ++ injection E as <- ->. exists b, r, a. split; [reflexivity|]. split; [|auto]. intros z I Z. apply B; [right; exact I|exact Z].
      * split; intro H.
        -- intros r [<-|I] Z; [congruence|]. apply H; assumption.
        -- intros r I Z. apply H; [right; exact I|exact Z].
Qed.
Lemma filter_filter : forall A (f g : A -> bool) l, filter f (filter g l) = filter (fun x => g x && f x) l.
Proof. induction l as [|x l IH]; [reflexivity|]. cbn [filter]. destruct (g x); cbn [filter andb]; [destruct (f x); rewrite IH; reflexivity|exact IH]. Qed.

(** the packages of the first of [search] that satisfies [P] and has an answer *)
Definition first_match (P : repo -> Prop) (d : dep) (search : list repo) (l : list package) : Prop :=
  l <> [] /\ exists before r after, search = before ++ r :: after /\ (forall b, In b before -> P b -> r_match b d = Ok []) /\ P r /\ r_match r d = Ok l.
Definition no_match (P : repo -> Prop) (d : dep) (search : list repo) : Prop := forall r, In r search -> P r -> r_match r d = Ok [].
Definition searched (bind_only : list str) (r : repo) : Prop := r_plain r = true /\ ~ In (r_name r) bind_only.
Definition handles (protocol : str) (r : repo) : Prop := In protocol (r_protocols r).

Lemma answer_lawful : forall (P : repo -> Prop) d search l, Forall lawful search -> first_match P d search l -> filter_prereleases d (filter p_fits_env l) = l.
Proof.
  intros P d search l F [_ [b [r [a [-> [_ [_ R]]]]]]]. apply Forall_app in F. destruct F as [_ F]. inversion F as [|? ? L _]. apply L. exact R.
Qed.
Lemma nil_filtered : forall d, filter_prereleases d (filter p_fits_env []) = [].
Proof. intro d. unfold filter_prereleases. destruct (d_pre d); reflexivity. Qed.
Lemma unbound_answer : forall name search bind_only bindings d l, Forall lawful search -> d_url d = None -> dict_get (d_name d) bindings = None ->
  (r_match (composite name search bind_only bindings) d = Ok l <->
   first_match (searched bind_only) d search l \/ (l = [] /\ no_match (searched bind_only) d search)).
Proof.
  intros name search bind_only bindings d l F U B.
  set (P := fun r => r_plain r && negb (str_mem (r_name r) bind_only)).
  assert (PI : forall r, P r = true <-> searched bind_only r).
  { intro r. unfold P, searched. rewrite andb_true_iff, negb_true_iff, mem_false. reflexivity. }
  assert (E : r_match (composite name search bind_only bindings) d =
              do m <- first_answer d (filter P search); Ok (filter_prereleases d (filter p_fits_env (opt_or m [])))).
  { cbn [composite r_match]. unfold abstract_match, composite_do_match. rewrite U, B. cbv zeta. rewrite filter_filter. fold P.
    destruct (first_answer d (filter P search)) as [m|]; reflexivity. }
  rewrite E. clear E.
  assert (FM : forall x, (x <> [] /\ exists before r after, search = before ++ r :: after /\ (forall b, In b before -> P b = true -> r_match b d = Ok []) /\ P r = true /\ r_match r d = Ok x) <->
                         first_match (searched bind_only) d search x).
  { intro x. unfold first_match. split; intros [N [b [r [a [E [B2 [PR R]]]]]]]; (split; [exact N|]); exists b, r, a; (split; [exact E|]); (split; [|split; [apply PI; exact PR|exact R]]); intros y I Z; apply B2; try assumption; apply PI; exact Z. }
  split.
  - intro H. unfold bind in H. destruct (first_answer d (filter P search)) as [m|] eqn:A; [|discriminate]. apply first_answer_iff in A. destruct m as [x|].
    + left. apply FM in A. cbn [opt_or] in H. rewrite (answer_lawful _ d search x F A) in H. injection H as <-. exact A.
    + right. cbn [opt_or] in H. rewrite nil_filtered in H. injection H as <-. split; [reflexivity|]. intros r I Z. apply A; [exact I|apply PI; exact Z].
  - intros [H|[-> H]].
    + assert (A : first_answer d (filter P search) = Ok (Some l)) by (apply first_answer_iff; apply FM; exact H). rewrite A. cbn [bind opt_or].
      rewrite (answer_lawful _ d search l F H). reflexivity.
    + assert (A : first_answer d (filter P search) = Ok None) by (apply first_answer_iff; intros r I Z; apply H; [exact I|apply PI; exact Z]). rewrite A. cbn [bind opt_or].
      rewrite nil_filtered. reflexivity.
Qed.
Lemma url_answer : forall name search bind_only bindings d protocol l, Forall lawful search -> d_url d = Some protocol ->
  (r_match (composite name search bind_only bindings) d = Ok l <-> first_match (handles protocol) d search l).
Proof.
  intros name search bind_only bindings d protocol l F U.
  set (P := fun r => str_mem protocol (r_protocols r)).
  assert (PI : forall r, P r = true <-> handles protocol r) by (intro r; apply mem_iff).
  assert (FM : forall x, (x <> [] /\ exists before r after, search = before ++ r :: after /\ (forall b, In b before -> P b = true -> r_match b d = Ok []) /\ P r = true /\ r_match r d = Ok x) <->
                         first_match (handles protocol) d search x).
  { intro x. unfold first_match. split; intros [N [b [r [a [E [B2 [PR R]]]]]]]; (split; [exact N|]); exists b, r, a; (split; [exact E|]); (split; [|split; [apply PI; exact PR|exact R]]); intros y I Z; apply B2; try assumption; apply PI; exact Z. }
  cbn [composite r_match]. unfold abstract_match, composite_do_match. rewrite U. cbv zeta. fold P. split.
  - intro H. destruct (first_answer d (filter P search)) as [m|] eqn:A; [|discriminate]. apply first_answer_iff in A. destruct m as [x|]; [|discriminate].
    apply FM in A. cbn [bind] in H. rewrite (answer_lawful _ d search x F A) in H. injection H as <-. exact A.
  - intro H. assert (A : first_answer d (filter P search) = Ok (Some l)) by (apply first_answer_iff; apply FM; exact H). rewrite A. cbn [bind].
    rewrite (answer_lawful _ d search l F H). reflexivity.
Qed.
Lemma url_unmatched : forall name search bind_only bindings d protocol, d_url d = Some protocol -> no_match (handles protocol) d search ->
  r_match (composite name search bind_only bindings) d = Err TypeError.
Proof.
  intros name search bind_only bindings d protocol U H. cbn [composite r_match]. unfold abstract_match, composite_do_match. rewrite U. cbv zeta.
  assert (A : first_answer d (filter (fun r => str_mem protocol (r_protocols r)) search) = Ok None).
  { apply first_answer_iff. intros r I Z. apply H; [exact I|]. apply mem_iff. exact Z. }
  rewrite A. reflexivity.
Qed.
Lemma find_first : forall A (P : A -> bool) before r after, (forall b, In b before -> P b = false) -> P r = true -> find P (before ++ r :: after) = Some r.
Proof.
  induction before as [|x before IH]; intros r after B R; cbn [app find]; [rewrite R; reflexivity|]. rewrite (B x (or_introl eq_refl)). apply IH; [|exact R]. intros b I. apply B. right. exact I.
Qed.
Lemma find_filter : forall A (P Q : A -> bool) l, find P (filter Q l) = find (fun x => Q x && P x) l.
Proof. induction l as [|x l IH]; [reflexivity|]. cbn [filter find]. destruct (Q x); cbn [find andb]; [destruct (P x); auto|exact IH]. Qed.
Lemma bound_answer : forall name bind_only (bindings : list (str * str)) d (n : str) before r after, lawful r -> d_url d = None ->
  dict_get (d_name d) bindings = Some n -> n <> [] -> r_plain r = true -> r_name r = n -> (forall b, In b before -> r_plain b = true -> r_name b <> n) ->
  r_match (composite name (before ++ r :: after) bind_only bindings) d = r_match r d.
Proof.
  intros name bind_only bindings d n before r after F U B N PR RN BF. cbn [composite r_match]. unfold abstract_match, composite_do_match. rewrite U. cbv zeta. rewrite B.
  destruct n as [|c n]; [contradiction|]. rewrite find_filter.
  rewrite (find_first _ _ before r after).
  - destruct (r_match r d) as [l|e] eqn:R; [|reflexivity]. cbn [bind]. rewrite (F d l R). reflexivity.
  - intros b I. destruct (r_plain b) eqn:PB; [|reflexivity]. cbn [andb]. apply str_eqb_neq. apply BF; assumption.
  - rewrite PR, RN. cbn [andb]. apply str_eqb_refl.
Qed.
Lemma bound_unknown : forall name search bind_only (bindings : list (str * str)) d (n : str), d_url d = None -> dict_get (d_name d) bindings = Some n -> n <> [] ->
  (forall r, In r search -> r_plain r = true -> r_name r <> n) -> r_match (composite name search bind_only bindings) d = Err NoSuchElement.
Proof.
  intros name search bind_only bindings d n U B N H. cbn [composite r_match]. unfold abstract_match, composite_do_match. rewrite U, B. cbv zeta.
  destruct n as [|c n]; [contradiction|]. rewrite find_filter.
  assert (X : find (fun x => r_plain x && str_eqb (r_name x) (c :: n)) search = None).
  { destruct (find _ search) as [r|] eqn:E; [|reflexivity]. apply find_some in E. destruct E as [I E]. apply andb_true_iff in E. destruct E as [E1 E2]. apply str_eqb_eq in E2.
    exfalso. exact (H r I E1 E2). }
  rewrite X. reflexivity.
Qed.

(** ** the lookup chain *)
Section Chain.
Context {X : Type} (g : contexts X) (root : X).
Inductive inherits : X -> bool -> Prop :=
| inherits_self : inherits root true
| inherits_parent : forall a b f, inherits a true -> In (b, f) (x_parents g a) -> inherits b f.
Definition inv (pending : list (X * bool)) (closed : list str) (chain : list X) : Prop :=
  closed = map (x_path g) chain /\ NoDup closed /\ (forall m f, In (m, f) pending -> inherits m f) /\ (forall m, In m chain -> exists f, inherits m f) /\
  ((pending = [(root, true)] /\ chain = []) \/ exists rest, chain = rest ++ [root]).
Definition closed_inv (pending : list (X * bool)) (chain : list X) : Prop :=
  forall a b f, In a chain -> inherits a true -> In (b, f) (x_parents g a) -> In b chain \/ In (b, f) pending.
Definition uniform : Prop := forall m f1 f2, inherits m f1 -> inherits m f2 -> f1 = f2.
Definition distinct_paths : Prop := forall a b f1 f2, inherits a f1 -> inherits b f2 -> x_path g a = x_path g b -> a = b.
Lemma loop_sound : forall fuel pending closed chain r, inv pending closed chain -> chain_loop fuel g pending closed chain = Some r ->
  NoDup (map (x_path g) r) /\ (forall m, In m r -> exists f, inherits m f) /\ (exists rest, r = root :: rest) /\
  (uniform -> distinct_paths -> closed_inv pending chain -> (chain = [] -> pending = [(root, true)]) -> forall m f, inherits m f -> In m r).
Proof.
  induction fuel as [|fuel IH]; intros pending closed chain r INV H; [discriminate|]. cbn [chain_loop] in H.
  destruct INV as [EC [ND [IP [IC RT]]]]. destruct pending as [|[n inherit] rest].
  - injection H as <-. destruct RT as [[RT _]|[t RT]]; [discriminate|]. split; [|split; [|split]].
    + rewrite map_rev, <- EC. apply NoDup_rev. exact ND.
    + intros m I. apply in_rev in I. apply IC. exact I.
    + exists (rev t). subst chain. rewrite rev_app_distr. reflexivity.
    + intros _ _ CI _ m f R. apply -> in_rev. assert (G : forall m f, inherits m f -> In m chain).
      { clear m f R. intros m f R. induction R as [|a b f R IHR IN]; [subst chain; apply in_or_app; right; left; reflexivity|].
        destruct (CI a b f IHR R IN) as [D|[]]. exact D. }
      eapply G. exact R.
  - destruct (str_mem (x_path g n) closed) eqn:M.
    + assert (INV2 : inv rest closed chain).
      { split; [exact EC|]. split; [exact ND|]. split; [intros m f I; apply IP; right; exact I|]. split; [exact IC|].
        destruct RT as [[E1 E2]|RT]; [|right; exact RT]. subst chain. cbn [map] in EC. subst closed. discriminate. }
      destruct (IH _ _ _ _ INV2 H) as [A [B [C D]]]. split; [exact A|]. split; [exact B|]. split; [exact C|].
      intros UN DP CI NE. apply D; [exact UN|exact DP| |].
      * intros a b f IA RA IN. destruct (CI a b f IA RA IN) as [Y|[Y|Y]]; [left; exact Y| |right; exact Y]. injection Y as -> ->. left.
        apply mem_iff in M. rewrite EC in M. apply in_map_iff in M. destruct M as [q [EQ IQ]]. destruct (IC q IQ) as [fq RQ].
        assert (b = q) by (eapply DP; [apply IP; left; reflexivity|exact RQ|symmetry; exact EQ]). subst q. exact IQ.
      * intros ->. exfalso. cbn [map] in EC. subst closed. discriminate.
    + assert (INV2 : inv (if inherit then rev (x_parents g n) ++ rest else rest) (x_path g n :: closed) (n :: chain)).
      { assert (RN : inherits n inherit) by (apply IP; left; reflexivity).
        split; [rewrite EC; reflexivity|]. split; [constructor; [apply mem_false; exact M|exact ND]|]. split.
        - intros m f I. destruct inherit; [|apply IP; right; exact I]. apply in_app_or in I. destruct I as [I|I]; [|apply IP; right; exact I].
          apply in_rev in I. eapply inherits_parent; [exact RN|exact I].
        - split; [intros m [<-|I]; [exists inherit; exact RN|apply IC; exact I]|]. right. destruct RT as [[E1 ->]|[t ->]].
          + injection E1 as -> _ _. exists []. reflexivity.
          + exists (n :: t). reflexivity. }
      destruct (IH _ _ _ _ INV2 H) as [A [B [C D]]]. split; [exact A|]. split; [exact B|]. split; [exact C|].
      intros UN DP CI NE. apply D; [exact UN|exact DP| |discriminate].
      intros a b f [<-|IA] RA IN.
      * assert (inherit = true) by (eapply UN; [apply IP; left; reflexivity|exact RA]). subst inherit. right. apply in_or_app. left. apply -> in_rev. exact IN.
      * destruct (CI a b f IA RA IN) as [Y|[Y|Y]]; [left; right; exact Y|injection Y as -> ->; left; left; reflexivity|].
        right. destruct inherit; [apply in_or_app; right; exact Y|exact Y].
Qed.
(** termination *)
Definition open_edges (nodes : list X) (closed : list str) : nat :=
  list_sum (map (fun m => if str_mem (x_path g m) closed then 0 else length (x_parents g m)) nodes).
Lemma open_edges_mono : forall nodes p closed, open_edges nodes (p :: closed) <= open_edges nodes closed.
Proof.
  unfold open_edges. induction nodes as [|m nodes IH]; intros p closed; cbn [map list_sum fold_right]; [lia|]. specialize (IH p closed). unfold list_sum in IH.
  assert ((if str_mem (x_path g m) (p :: closed) then 0 else length (x_parents g m)) <= (if str_mem (x_path g m) closed then 0 else length (x_parents g m))).
  { unfold str_mem. cbn [existsb]. destruct (str_eqb (x_path g m) p); cbn [orb]; [lia|]. lia. }
  lia.
Qed.
Lemma open_edges_close : forall nodes n closed, In n nodes -> str_mem (x_path g n) closed = false ->
  open_edges nodes (x_path g n :: closed) + length (x_parents g n) <= open_edges nodes closed.
Proof.
  induction nodes as [|m nodes IH]; intros n closed I M; [destruct I|]. destruct I as [->|I].
  - pose proof (open_edges_mono nodes (x_path g n) closed) as H. unfold open_edges in *. cbn [map list_sum fold_right]. rewrite M.
    assert (E : str_mem (x_path g n) (x_path g n :: closed) = true) by (apply mem_iff; left; reflexivity). rewrite E. unfold list_sum in H. lia.
  - specialize (IH n closed I M). unfold open_edges in *. cbn [map list_sum fold_right]. unfold list_sum in IH.
    assert ((if str_mem (x_path g m) (x_path g n :: closed) then 0 else length (x_parents g m)) <= (if str_mem (x_path g m) closed then 0 else length (x_parents g m))).
    { unfold str_mem. cbn [existsb]. destruct (str_eqb (x_path g m) (x_path g n)); cbn [orb]; lia. }
    lia.
Qed.
Lemma loop_terminates : forall nodes fuel pending closed chain, (forall m f, In m nodes -> In f (x_parents g m) -> In (fst f) nodes) ->
  (forall m f, In (m, f) pending -> In m nodes) -> length pending + open_edges nodes closed < fuel -> exists r, chain_loop fuel g pending closed chain = Some r.
Proof.
  intros nodes fuel. induction fuel as [|fuel IH]; intros pending closed chain CL IN LT; [lia|]. cbn [chain_loop]. destruct pending as [|[n inherit] rest]; [eexists; reflexivity|].
  destruct (str_mem (x_path g n) closed) eqn:M.
  - apply IH; [exact CL|intros m f I; eapply IN; right; exact I|cbn [length] in LT; lia].
  - assert (NN : In n nodes) by (eapply IN; left; reflexivity). pose proof (open_edges_close nodes n closed NN M) as OE. apply IH; [exact CL| |].
    + intros m f I. destruct inherit; [|eapply IN; right; exact I]. apply in_app_or in I. destruct I as [I|I]; [|eapply IN; right; exact I].
      apply in_rev in I. exact (CL n (m, f) NN I).
    + cbn [length] in LT. destruct inherit; [rewrite app_length, rev_length|]; lia.
Qed.
Lemma chain_total : forall nodes global, In root nodes -> (forall m f, In m nodes -> In f (x_parents g m) -> In (fst f) nodes) ->
  exists bound, forall fuel, bound <= fuel -> exists r, lookup_chain fuel g global root = Some r.
Proof.
  intros nodes global I CL. exists (2 + open_edges nodes []). intros fuel LE. unfold lookup_chain. destruct (x_mode g root); [|eexists; reflexivity|eexists; reflexivity].
  apply loop_terminates with nodes; [exact CL| |cbn [length]; lia]. intros m f [E|[]]. injection E as <- <-. exact I.
Qed.
Lemma chain_sound : forall fuel global r, x_mode g root = InheritContext -> lookup_chain fuel g global root = Some r ->
  NoDup (map (x_path g) r) /\ (forall m, In m r -> exists f, inherits m f) /\ (exists rest, r = root :: rest) /\
  (uniform -> distinct_paths -> forall m f, inherits m f -> In m r).
Proof.
  intros fuel global r MD H. unfold lookup_chain in H. rewrite MD in H. assert (INV : inv [(root, true)] [] []).
  { split; [reflexivity|]. split; [constructor|]. split; [intros m f [E|[]]; injection E as <- <-; constructor|]. split; [intros m []|]. left. auto. }
  destruct (loop_sound _ _ _ _ _ INV H) as [A [B [C D]]]. split; [exact A|]. split; [exact B|]. split; [exact C|]. intros UN DP. apply D; auto. intros a b f [].
Qed.
End Chain.

(** the chains of the contexts there are *)
Definition opt_list {A} (o : option A) : list A := match o with Some a => [a] | None => [] end.
Definition nearest_first (c : context) : list context :=
  match c with
  | CPkm => [CPkm]
  | CZoo z => [CZoo z; CPkm]
  | CEnv e z => [CEnv e z] ++ opt_list (option_map CZoo z) ++ [CPkm]
  | CGroup g => [CGroup g; CPkm]
  | CProject p e z g => [CProject p e z g] ++ opt_list (option_map CGroup g) ++ [CEnv e z] ++ opt_list (option_map CZoo z) ++ [CPkm]
  end.
Lemma loop_skip : forall X (g : contexts X) fuel n i rest closed chain, ~ In (x_path g n) closed ->
  chain_loop (S fuel) g ((n, i) :: rest) closed chain = chain_loop fuel g (if i then rev (x_parents g n) ++ rest else rest) (x_path g n :: closed) (n :: chain).
Proof. intros X g fuel n i rest closed chain H. cbn [chain_loop]. apply mem_false in H. rewrite H. reflexivity. Qed.
Lemma chain_of : forall pkm modes global c fuel, modes c = InheritContext -> NoDup (map (context_path pkm) (nearest_first c)) -> 7 <= fuel ->
  lookup_chain fuel (all_contexts pkm modes) global c = Some (nearest_first c).
Proof.
  intros pkm modes global c fuel MD ND LE. unfold lookup_chain. cbn [all_contexts x_mode]. rewrite MD.
  do 7 (destruct fuel as [|fuel]; [lia|]). clear LE.
  destruct c as [|z|e [z|]|gr|p e [z|] [gr|]]; cbn [nearest_first opt_list option_map app map context_path] in ND |- *;
    repeat match goal with H : NoDup (_ :: _) |- _ => let N := fresh "N" in let D := fresh "D" in inversion H as [|? ? N D]; clear H; subst; cbn [In] in N end;
    repeat (rewrite loop_skip; [cbn [all_contexts x_parents x_path parents context_path rev app]|cbn [all_contexts x_path context_path In]; intuition congruence]);
    reflexivity.
Qed.

(** ** loading *)
Definition names_after (bs : builders) : Prop := forall ty b n args r, dict_get ty bs = Some b -> b n args = Ok r -> r_name r = n.
Definition same_definition (i j : instance) : bool := str_eqb (i_type i) (i_type j) && args_eqb (i_args i) (i_args j).
(** no definition is in the cache and no two are the same *)
Definition fresh (c : cache) (l : list (str * instance)) : Prop :=
  (forall n i, In (n, i) l -> cached (i_type i) (i_args i) c = None) /\ ForallOrdPairs (fun a b => same_definition (snd a) (snd b) = false) l.
Definition built_from (bs : builders) (e : str * instance) (r : repo) : Prop :=
  exists b, dict_get (i_type (snd e)) bs = Some b /\ b (fst e) (keyword_args (i_args (snd e))) = Ok r.
Lemma cached_app : forall ty args c t a r, cached ty args c = None -> str_eqb t ty && args_eqb a args = false -> cached ty args (c ++ [((t, a), r)]) = None.
Proof.
  intros ty args c t a r. induction c as [|[[t0 a0] r0] c IH]; intros H E; cbn [app cached] in *; [rewrite E; reflexivity|].
  destruct (str_eqb t0 ty && args_eqb a0 args); [discriminate|]. apply IH; assumption.
Qed.
Lemma build_defined_own : forall bs l c rs c', fresh c l -> build_defined bs l c = (Ok rs, c') -> Forall2 (built_from bs) l rs.
Proof.
  intros bs l. induction l as [|[n i] l IH]; intros c rs c' [F1 F2] H; cbn [build_defined] in H.
  - injection H as <- _. constructor.
  - unfold build in H. rewrite (F1 n i (or_introl eq_refl)) in H. destruct (dict_get (i_type i) bs) as [b|] eqn:B; [|discriminate].
    destruct (b n (keyword_args (i_args i))) as [r|] eqn:R; [|discriminate].
    destruct (build_defined bs l (c ++ [((i_type i, i_args i), r)])) as [rs2 c2] eqn:D. destruct rs2 as [rs2|]; [|discriminate]. cbn [bind] in H. injection H as <- _.
    inversion F2 as [|? ? F3 F4]. subst. constructor; [exists b; auto|]. eapply IH; [|exact D]. split; [|exact F4].
    intros m j I. apply cached_app; [apply (F1 m j); right; exact I|]. rewrite Forall_forall in F3. exact (F3 (m, j) I).
Qed.
(** definitions that differ in their type or in some argument are kept apart *)
Definition differ (i j : instance) : Prop :=
  i_type i <> i_type j \/ exists k, dict_get k (i_args i) <> dict_get k (i_args j).
Lemma args_eqb_same : forall a b, NoDup (map fst a) -> NoDup (map fst b) -> args_eqb a b = true -> forall k, dict_get k a = dict_get k b.
Proof.
  intros a b Na Nb H k. unfold args_eqb in H. apply andb_true_iff in H. destruct H as [L F]. apply Nat.eqb_eq in L.
  rewrite forallb_forall in F.
  assert (G : forall k v, dict_get k a = Some v -> dict_get k b = Some v).
  { intros q v X. apply dict_get_in in X. specialize (F _ X). cbn [fst snd] in F.
    destruct (dict_get q b) as [w|]; [|discriminate F]. cbn in F. apply str_eqb_eq in F. subst. reflexivity. }
  destruct (dict_get k a) as [v|] eqn:A; [symmetry; apply G; exact A|].
  destruct (dict_get k b) as [w|] eqn:B; [|reflexivity]. exfalso.
  assert (I : incl (map fst b) (map fst a)).
  { apply NoDup_length_incl; [exact Na|rewrite !map_length; lia|].
    intros q I. apply in_map_iff in I. destruct I as ([q' v] & <- & I). specialize (F _ I). cbn [fst snd] in *.
    destruct (dict_get q' b) as [w'|] eqn:B'; [|discriminate F]. apply dict_get_in in B'. apply (in_map fst) in B'. exact B'. }
  apply dict_get_in in B. apply (in_map fst) in B. cbn [fst] in B. apply I in B. apply dict_get_none in A. contradiction.
Qed.
Lemma differ_fresh : forall l, Forall (fun e => NoDup (map fst (i_args (snd e)))) l -> ForallOrdPairs (fun a b => differ (snd a) (snd b)) l -> fresh [] l.
Proof.
  intros l N F. split; [reflexivity|]. induction F as [|e l H F IH]; [constructor|].
  inversion N as [|? ? N1 N2]. subst. constructor; [|apply IH; exact N2].
  rewrite Forall_forall in *. intros x I. specialize (H x I). specialize (N2 x I). unfold same_definition.
  destruct (str_eqb (i_type (snd e)) (i_type (snd x))) eqn:T; [|reflexivity]. apply str_eqb_eq in T.
  destruct (args_eqb (i_args (snd e)) (i_args (snd x))) eqn:A; [|reflexivity].
  destruct H as [H|[k H]]; [contradiction|]. destruct (H (args_eqb_same _ _ N1 N2 A k)).
Qed.
Lemma build_bindings_get : forall bs name l c x kept c' p n, build_bindings bs name l c = (Ok x, kept, c') -> dict_get p l = Some (ToRepo n) -> dict_get p (snd x) = Some n.
Proof.
  intros bs name l. induction l as [|[q bd] l IH]; intros c x kept c' p n H G; [discriminate|]. cbn [build_bindings dict_get] in H, G. destruct bd as [m|def].
  - destruct (build_bindings bs name l c) as [[r k] c2] eqn:E. destruct r as [y|]; [|discriminate]. cbn [bind] in H. injection H as <- _ _. cbn [snd dict_get].
    destruct (str_eqb p q); [injection G as <-; reflexivity|]. eapply IH; [exact E|exact G].
  - destruct (dict_get type_key def) as [ty|]; [|discriminate]. destruct (build bs name ty (dict_del type_key def) c) as [rb c1]. destruct rb as [b|]; [|discriminate].
    destruct (build_bindings bs name l c1) as [[r k] c2] eqn:E. destruct r as [y|]; [|discriminate]. cbn [bind] in H. injection H as <- _ _. cbn [snd dict_get].
    destruct (str_eqb p q); [discriminate|]. eapply IH; [exact E|exact G].
Qed.
Lemma dict_get_split : forall V k (v : V) l, dict_get k l = Some v -> exists a b, l = a ++ (k, v) :: b /\ ~ In k (map fst a).
Proof.
  induction l as [|[q w] l IH]; intro H; [discriminate|]. cbn [dict_get] in H. destruct (str_eqb k q) eqn:E.
  - injection H as ->. apply str_eqb_eq in E. subst q. exists [], l. split; [reflexivity|intros []].
  - destruct (IH H) as [a [b [-> N]]]. exists ((q, w) :: a), b. split; [reflexivity|]. cbn [map fst]. intros [X|X]; [subst; rewrite str_eqb_refl in E; discriminate|contradiction].
Qed.
Lemma present_app : forall a b s, present (map Some a ++ b) = Ok s -> exists t, s = a ++ t.
Proof.
  induction a as [|x a IH]; intros b s H; [exists s; reflexivity|]. cbn [map app present] in H. destruct (present (map Some a ++ b)) as [y|] eqn:E; [|discriminate]. cbn [bind] in H. injection H as <-.
  destruct (IH _ _ E) as [t ->]. exists t. reflexivity.
Qed.
Lemma load_binding : forall bs global name cfg next c R cfg' c' d n i r,
  load bs global name cfg next c = (Ok (Some R), cfg', c') -> names_after bs -> fresh c (c_repos cfg) -> n <> [] ->
  dict_get (d_name d) (c_bindings cfg) = Some (ToRepo n) -> dict_get n (c_repos cfg) = Some i -> built_from bs (n, i) r ->
  r_plain r = true -> lawful r -> d_url d = None -> r_match R d = r_match r d.
Proof.
  intros bs global name cfg next c R cfg' c' d n i r H NA FR NE B G BF PL LW U. unfold load in H.
  destruct (build_defined bs (c_repos cfg) c) as [[defined|] c1] eqn:BD; [|discriminate].
  pose proof (build_defined_own _ _ _ _ _ FR BD) as F2. destruct (build_bindings bs name (c_bindings cfg) c1) as [[rb kept] c2] eqn:BB. cbv zeta in H.
  destruct rb as [x|]; [|discriminate]. cbn [bind] in H. pose proof (build_bindings_get _ _ _ _ _ _ _ _ _ BB B) as GB.
  destruct (dict_get_split _ _ _ _ G) as [a [b [ER NI]]]. rewrite ER in F2. apply Forall2_app_inv_l in F2. destruct F2 as [la [lb [FA [FB ED]]]].
  destruct lb as [|r' lb]; [inversion FB|]. inversion FB as [|? ? ? ? BF2 FB3]. subst.
  assert (r' = r). { destruct BF as [b1 [E1 E2]]. destruct BF2 as [b2 [E3 E4]]. cbn [fst snd] in *. congruence. } subst r'.
  set (inh := match c_mode cfg with InheritContext => [next] | InheritGlobal => [global] | NoInheritance => [] end) in H.
  assert (H2 : (do search <- present (map Some (la ++ r :: lb) ++ inh ++ map Some (fst x));
                Ok (Some (composite name search (defined_bind_only (c_repos cfg) ++ map r_name (fst x)) (snd x)))) = Ok (Some R)).
  { destruct la; cbn [app] in H |- *; congruence. }
  clear H. destruct (present _) as [search|] eqn:P; [|discriminate]. cbn [bind] in H2. injection H2 as <-. apply present_app in P. destruct P as [t ->]. rewrite <- app_assoc. cbn [app].
  apply bound_answer with n; auto.
  - destruct BF as [bb [E1 E2]]. cbn [fst snd] in *. eapply NA; eassumption.
  - intros y I _ EY. apply NI. clear - FA I EY NA. induction FA as [|e z l1 l2 BZ FA IH]; [destruct I|]. destruct I as [->|I]; [|right; auto].
    left. destruct BZ as [bb [E1 E2]]. rewrite <- EY. symmetry. eapply NA; eassumption.
Qed.
Lemma own_names : forall bs l c rs c', names_after bs -> fresh c l -> build_defined bs l c = (Ok rs, c') -> map r_name rs = map fst l.
Proof.
  intros bs l c rs c' NA FR H. pose proof (build_defined_own _ _ _ _ _ FR H) as F. clear - F NA. induction F as [|e r l rs B F IH]; [reflexivity|]. cbn [map]. f_equal; [|exact IH].
  destruct B as [b [E1 E2]]. eapply NA; eassumption.
Qed.

(** ** management *)
Definition tidy (c : config) : Prop := NoDup (map fst (c_repos c)) /\ NoDup (map fst (c_bindings c)).
Lemma update_get : forall (v : binding) packages d p,
  dict_get p (dict_update d (map (fun q => (q, v)) packages)) = if str_mem p packages then Some v else dict_get p d.
Proof.
  intros v packages. unfold dict_update. induction packages as [|q packages IH]; intros d p; [reflexivity|]. cbn [map fold_left fst snd]. rewrite IH.
  unfold str_mem. cbn [existsb]. fold (str_mem p packages). destruct (str_mem p packages); [rewrite orb_true_r; reflexivity|]. rewrite orb_false_r.
  destruct (str_eqb p q) eqn:E.
  - apply str_eqb_eq in E. subst. apply dict_get_set_same.
  - apply str_eqb_neq in E. apply dict_get_set_other. exact E.
Qed.
Lemma update_nodup : forall V (b d : list (str * V)), NoDup (map fst d) -> NoDup (map fst (dict_update d b)).
Proof. unfold dict_update. induction b as [|[k v] b IH]; intros d N; [exact N|]. cbn [fold_left fst snd]. apply IH. apply dict_set_keys. exact N. Qed.
Lemma without_keys_get : forall V packages (d : list (str * V)) p,
  dict_get p (filter (fun e => negb (str_mem (fst e) packages)) d) = if str_mem p packages then None else dict_get p d.
Proof.
  intros V packages. induction d as [|[k v] d IH]; intro p; cbn [filter fst]; [destruct (str_mem p packages); reflexivity|].
  destruct (str_mem k packages) eqn:M; cbn [negb].
  - rewrite IH. destruct (str_mem p packages) eqn:MP; [reflexivity|]. cbn [dict_get]. destruct (str_eqb p k) eqn:E; [|reflexivity]. apply str_eqb_eq in E. subst. congruence.
  - cbn [dict_get]. destruct (str_eqb p k) eqn:E; [|apply IH]. apply str_eqb_eq in E. subst. rewrite M. reflexivity.
Qed.
Lemma filter_keys_sub : forall V (f : str * V -> bool) d k, In k (map fst (filter f d)) -> In k (map fst d).
Proof. intros V f d k I. apply in_map_iff in I. destruct I as [e [<- I]]. apply filter_In in I. apply in_map. apply I. Qed.
Lemma filter_nodup : forall V (f : str * V -> bool) d, NoDup (map fst d) -> NoDup (map fst (filter f d)).
Proof.
  induction d as [|e d IH]; intro N; [exact N|]. cbn [map] in N. inversion N as [|? ? N1 N2]. subst. cbn [filter]. destruct (f e); [|auto]. cbn [map]. constructor; [|auto].
  intro I. apply N1. eapply filter_keys_sub. exact I.
Qed.
Lemma filter_get : forall V (f : V -> bool) (d : list (str * V)) p, NoDup (map fst d) ->
  dict_get p (filter (fun e => f (snd e)) d) = match dict_get p d with Some v => if f v then Some v else None | None => None end.
Proof.
  induction d as [|[k v] d IH]; intros p N; [reflexivity|]. cbn [map fst] in N. inversion N as [|? ? N1 N2]. subst. cbn [filter snd dict_get]. destruct (str_eqb p k) eqn:E.
  - apply str_eqb_eq in E. subst p. destruct (f v) eqn:F; [cbn [dict_get]; rewrite str_eqb_refl; reflexivity|]. apply dict_get_none. intro I. apply N1. eapply filter_keys_sub. exact I.
  - destruct (f v); [cbn [dict_get]; rewrite E|]; apply IH; exact N2.
Qed.
Lemma del_keys_nodup : forall V k (d : list (str * V)), NoDup (map fst d) -> NoDup (map fst (dict_del k d)).
Proof.
  induction d as [|[q v] d IH]; intro N; [exact N|]. cbn [map fst] in N. inversion N as [|? ? N1 N2]. subst. cbn [dict_del]. destruct (str_eqb k q); [exact N2|]. cbn [map fst].
  constructor; [|auto]. intro I. apply N1. clear - I. induction d as [|[a b] d IH]; [destruct I|]. cbn [dict_del] in I. destruct (str_eqb k a); [right; exact I|].
  destruct I as [I|I]; [left; exact I|right; auto].
Qed.

(** operations of a user on a configuration *)
Inductive op := Register (packages : list str) (n : str) | Clear (packages : list str) | Add (name ty : str) (args : list (str * str)) (bind_only : bool) | Remove (name : str).
Definition apply_op (bs : builders) (o : op) (m : manager) : res unit * manager :=
  match o with
  | Register ps n => register_bindings ps (Name n) m
  | Clear ps => register_bindings ps Nothing m
  | Add n ty a b => add_repository bs n ty a b m
  | Remove n => (Ok tt, remove_repository n m)
  end.
(** what is left of an entry after one operation *)
Definition binding_after (ok : bool) (o : op) (p : str) (before : option binding) : option binding :=
  match o with
  | Register ps n => if str_mem p ps then match n with [] => None | _ => Some (ToRepo n) end else before
  | Clear ps => if str_mem p ps then None else before
  | Add _ _ _ _ => before
  | Remove n => match before with Some (ToRepo x) => if str_eqb x n then None else before | _ => before end
  end.
Definition repo_after (ok : bool) (o : op) (n : str) (before : option instance) : option instance :=
  match o with
  | Register _ _ | Clear _ => before
  | Add x ty a b => if str_eqb n x && ok then Some (Instance ty b a) else before
  | Remove x => if str_eqb n x then None else before
  end.
Definition is_ok {A} (r : res A) : bool := match r with Ok _ => true | Err _ => false end.
Lemma op_exact : forall bs o m r m', tidy (m_config m) -> m_disk m = m_config m -> apply_op bs o m = (r, m') ->
  tidy (m_config m') /\ m_disk m' = m_config m' /\ c_mode (m_config m') = c_mode (m_config m) /\
  (forall p, dict_get p (c_bindings (m_config m')) = binding_after (is_ok r) o p (dict_get p (c_bindings (m_config m)))) /\
  (forall n, dict_get n (c_repos (m_config m')) = repo_after (is_ok r) o n (dict_get n (c_repos (m_config m)))).
Proof.
  intros bs o m r m' [T1 T2] DK H. destruct o as [ps n|ps|n ty a b|n]; cbn [apply_op] in H.
  - unfold register_bindings in H. destruct n as [|c n]; injection H as <- <-; cbn [with_bindings m_config m_disk c_bindings c_repos c_mode]; unfold tidy; cbn [c_bindings c_repos].
    + split; [split; [exact T1|apply filter_nodup; exact T2]|]. split; [reflexivity|]. split; [reflexivity|]. split; [intro p; apply without_keys_get|reflexivity].
    + split; [split; [exact T1|apply update_nodup; exact T2]|]. split; [reflexivity|]. split; [reflexivity|]. split; [intro p; apply update_get|reflexivity].
  - injection H as <- <-. cbn [with_bindings m_config m_disk c_bindings c_repos c_mode]; unfold tidy; cbn [c_bindings c_repos].
    split; [split; [exact T1|apply filter_nodup; exact T2]|]. split; [reflexivity|]. split; [reflexivity|]. split; [intro p; apply without_keys_get|reflexivity].
  - unfold add_repository in H. destruct (build bs n ty a (m_cache m)) as [[x|e] c]; injection H as <- <-; cbn [m_config m_disk c_bindings c_repos c_mode is_ok]; unfold tidy; cbn [c_bindings c_repos].
    + split; [split; [apply dict_set_keys; exact T1|exact T2]|]. split; [reflexivity|]. split; [reflexivity|]. split; [reflexivity|]. intro q. cbn [repo_after]. rewrite andb_true_r.
      destruct (str_eqb q n) eqn:E; [apply str_eqb_eq in E; subst; apply dict_get_set_same|]. apply str_eqb_neq in E. apply dict_get_set_other. exact E.
    + split; [split; assumption|]. split; [exact DK|]. split; [reflexivity|]. split; [reflexivity|]. intro q. cbn [repo_after]. rewrite andb_false_r. reflexivity.
  - injection H as <- <-. cbn [remove_repository m_config m_disk c_bindings c_repos c_mode]; unfold tidy; cbn [c_bindings c_repos].
    split; [split; [apply del_keys_nodup; exact T1|apply filter_nodup; exact T2]|]. split; [reflexivity|]. split; [reflexivity|]. split.
    + intro p. rewrite (filter_get _ (fun v => negb (binding_to n v))) by exact T2. cbn [binding_after]. destruct (dict_get p (c_bindings (m_config m))) as [[x|def]|]; [|reflexivity|reflexivity].
      cbn [binding_to]. destruct (str_eqb x n); reflexivity.
    + intro q. cbn [repo_after]. destruct (str_eqb q n) eqn:E; [apply str_eqb_eq in E; subst; apply dict_get_del_same; exact T1|]. apply str_eqb_neq in E. apply dict_get_del_other. exact E.
Qed.
Lemma no_binding_left : forall n m p, tidy (m_config m) -> dict_get p (c_bindings (m_config (remove_repository n m))) <> Some (ToRepo n).
Proof.
  intros n m p [T1 T2] H. cbn [remove_repository m_config c_bindings] in H. rewrite (filter_get _ (fun v => negb (binding_to n v))) in H by exact T2.
  destruct (dict_get p (c_bindings (m_config m))) as [v|]; [|discriminate]. destruct (binding_to n v) eqn:B; cbn [negb] in H; [discriminate|]. injection H as ->. cbn [binding_to] in B. rewrite str_eqb_refl in B. discriminate.
Qed.
Fixpoint apply_ops (bs : builders) (os : list op) (m : manager) : manager :=
  match os with [] => m | o :: os => apply_ops bs os (snd (apply_op bs o m)) end.
(** the operation names the package, or removes the repository it is bound to *)
Definition names_binding (o : op) (p : str) (b : option binding) : Prop :=
  match o with Register ps _ | Clear ps => In p ps | Add _ _ _ _ => False | Remove n => b = Some (ToRepo n) end.
Definition names_repo (o : op) (n : str) : Prop := match o with Add x _ _ _ | Remove x => n = x | _ => False end.
Lemma ops_exact : forall bs os m, tidy (m_config m) -> m_disk m = m_config m ->
  tidy (m_config (apply_ops bs os m)) /\ m_disk (apply_ops bs os m) = m_config (apply_ops bs os m) /\
  (forall p, (forall o, In o os -> ~ names_binding o p (dict_get p (c_bindings (m_config m)))) ->
     dict_get p (c_bindings (m_config (apply_ops bs os m))) = dict_get p (c_bindings (m_config m))) /\
  (forall n, (forall o, In o os -> ~ names_repo o n) -> dict_get n (c_repos (m_config (apply_ops bs os m))) = dict_get n (c_repos (m_config m))).
Proof.
  intros bs os. induction os as [|o os IH]; intros m T D; [auto|]. cbn [apply_ops]. destruct (apply_op bs o m) as [r m'] eqn:E. cbn [snd].
  destruct (op_exact bs o m r m' T D E) as [T2 [D2 [_ [B R]]]]. destruct (IH m' T2 D2) as [T3 [D3 [B3 R3]]]. split; [exact T3|]. split; [exact D3|]. split.
  - intros p N. assert (S : dict_get p (c_bindings (m_config m')) = dict_get p (c_bindings (m_config m))).
    { rewrite B. specialize (N o (or_introl eq_refl)). destruct o as [ps n|ps|n ty a b|n]; cbn [binding_after names_binding] in *; try reflexivity.
      - apply mem_false in N. rewrite N. reflexivity.
      - apply mem_false in N. rewrite N. reflexivity.
      - destruct (dict_get p (c_bindings (m_config m))) as [[x|def]|]; try reflexivity. destruct (str_eqb x n) eqn:X; [|reflexivity]. apply str_eqb_eq in X. subst. exfalso. apply N. reflexivity. }
    rewrite B3; [exact S|]. intros o2 I. rewrite S. apply N. right. exact I.
  - intros n N. rewrite R3 by (intros o2 I; apply N; right; exact I). rewrite R. specialize (N o (or_introl eq_refl)).
    destruct o as [ps x|ps|x ty a b|x]; cbn [repo_after names_repo] in *; try reflexivity.
    + apply str_eqb_neq in N. rewrite N. reflexivity.
    + apply str_eqb_neq in N. rewrite N. reflexivity.
Qed.

(** ** answers satisfy the request *)
Definition answers_fit (r : repo) : Prop := forall d l p, r_match r d = Ok l -> In p l -> d_allows d p = true.
Lemma first_answer_sub : forall d l m, first_answer d l = Ok (Some m) -> exists r, In r l /\ r_match r d = Ok m.
Proof.
  intros d l. induction l as [|r l IH]; intros m H; cbn [first_answer] in H; [discriminate|]. unfold bind in H. destruct (r_match r d) as [x|] eqn:E; [|discriminate].
  destruct x as [|y x]; [|injection H as <-; exists r; split; [left; reflexivity|exact E]]. destruct (IH m H) as [q [I Q]]. exists q. split; [right; exact I|exact Q].
Qed.
Lemma composite_fits : forall name search bind_only bindings, Forall answers_fit search -> answers_fit (composite name search bind_only bindings).
Proof.
  intros name search bind_only bindings F d l p H I. rewrite Forall_forall in F. cbn [composite r_match] in H. unfold abstract_match, bind in H.
  destruct (composite_do_match search bind_only bindings d) as [x|] eqn:E; [|discriminate]. injection H as <-. apply pre_sub in I. apply filter_In in I. destruct I as [I _].
  unfold composite_do_match in E. cbv zeta in E. destruct (d_url d) as [u|].
  - unfold bind in E. destruct (first_answer _ _) as [[m|]|] eqn:A; [|discriminate|discriminate]. injection E as <-. apply first_answer_sub in A. destruct A as [r [IR M]]. apply filter_In in IR.
    exact (F r (proj1 IR) d _ p M I).
  - assert (UB : (do m <- first_answer d (filter (fun r => negb (str_mem (r_name r) bind_only)) (filter r_plain search)); Ok (opt_or m [])) = Ok x -> d_allows d p = true).
    { intro H. unfold bind in H. destruct (first_answer _ _) as [[m|]|] eqn:A; [| |discriminate]; injection H as <-; [|destruct I]. apply first_answer_sub in A. destruct A as [r [IR M]].
      apply filter_In in IR. destruct IR as [IR _]. apply filter_In in IR. exact (F r (proj1 IR) d _ p M I). }
    destruct (dict_get (d_name d) bindings) as [[|c n]|]; [exact (UB E)| |exact (UB E)].
    destruct (find _ _) as [r|] eqn:FD; [|discriminate]. apply find_some in FD. destruct FD as [IR _]. apply filter_In in IR. exact (F r (proj1 IR) d _ p E I).
Qed.
