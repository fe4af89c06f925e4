(** The bound on the number of rounds: once it suffices the answer does not depend on it. *)
From Coq Require Import Ascii List Bool NArith Arith Lia.
From Verif Require Import Base VersionModel SpecifierModel PubgrubModel PubgrubIdeal.
Import ListNotations.
Open Scope nat_scope.
Open Scope list_scope.
Open Scope bool_scope.

Section Fuel.
Context {S V : Type} (O : ops S V) (P : problem S V) (root : pkg) (pick : list pkg -> nat).
Notation resolve_conflict := (resolve_conflict S V O root).
Notation process := (process S V O root).
Notation propagate := (propagate S V O root pick).
Notation solve_loop := (solve_loop S V O P root pick).

Lemma resolve_more : forall n m x i o a p, n <= m -> resolve_conflict n x i o a p <> Err RecursionErr -> resolve_conflict m x i o a p = resolve_conflict n x i o a p.
Proof.
  induction n as [|n IH]; intros m x i o a p L H; [exfalso; apply H; reflexivity|]. destruct m as [|m]; [lia|]. apply le_S_n in L. cbn [PubgrubModel.resolve_conflict] in *. cbv zeta in *.
  destruct (is_tautology S root _); [reflexivity|]. destruct (is_decision S a || _); [reflexivity|]. destruct (term_for S _ _); [|reflexivity]. destruct (a_cause S a); [|reflexivity].
  destruct (terms_eqb S V O _ _); [reflexivity|]. destruct (o_all O _ _) as [b|e]; [|reflexivity]. cbn [bind] in *.
  match goal with |- (do _ <- ?r; _) = _ => destruct r as [q|e]; [|reflexivity] end. cbn [bind] in *. destruct (create_terms S V O q) as [ts|e]; [|reflexivity]. cbn [bind] in *.
  destruct (new_inc S V _ _) as [y k]. destruct (is_tautology S root (inc S V y k)); [apply IH; assumption|]. destruct (check_satisfaction S V O _ _) as [[]|e]; cbn [bind] in *; try reflexivity. apply IH; assumption.
Qed.
Lemma process_more : forall n m, n <= m -> forall todo x changed, process n todo x changed <> Err RecursionErr -> process m todo x changed = process n todo x changed.
Proof.
  intros n m L. induction todo as [|i todo IH]; intros x changed H; [reflexivity|]. cbn [PubgrubModel.process] in *. destruct (check_satisfaction S V O _ _) as [[|t|a p]|e]; cbn [bind] in *; [apply IH; assumption| | |reflexivity].
  - destruct (negate S V O _) as [nt|e]; cbn [bind] in *; [|reflexivity]. destruct (assign_term S V O root _ _ _) as [s|e]; cbn [bind] in *; [|reflexivity]. apply IH. assumption.
  - destruct (resolve_conflict n x i i a p) as [xp|e] eqn:E.
    + rewrite (resolve_more n m) by (try exact L; rewrite E; discriminate). rewrite E. cbn [bind] in *. apply IH. assumption.
    + rewrite (resolve_more n m) by (try exact L; rewrite E; intro X; injection X as ->; apply H; reflexivity). rewrite E. reflexivity.
Qed.
Lemma propagate_more : forall n m x changed, n <= m -> propagate n x changed <> Err RecursionErr -> propagate m x changed = propagate n x changed.
Proof.
  induction n as [|n IH]; intros m x changed L H; (destruct changed as [|c changed]; [destruct m; reflexivity|]); [exfalso; apply H; reflexivity|]. destruct m as [|m]; [lia|]. cbn [PubgrubModel.propagate] in *. cbv zeta in *.
  match goal with |- context [process (Datatypes.S n) ?t ?x ?c] => destruct (process (Datatypes.S n) t x c) as [xc|e] eqn:E end.
  - rewrite (process_more (Datatypes.S n) (Datatypes.S m)) by (try exact L; rewrite E; discriminate). rewrite E. cbn [bind] in *. apply IH; [lia|assumption].
  - rewrite (process_more (Datatypes.S n) (Datatypes.S m)) by (try exact L; rewrite E; intro X; injection X as ->; apply H; reflexivity). rewrite E. reflexivity.
Qed.
Lemma loop_more : forall n m x p, n <= m -> solve_loop n x p <> Err RecursionErr -> solve_loop m x p = solve_loop n x p.
Proof.
  induction n as [|n IH]; intros m x p L H; [exfalso; apply H; reflexivity|]. destruct m as [|m]; [lia|]. cbn [PubgrubModel.solve_loop] in *.
  destruct (propagate (Datatypes.S n) x [p]) as [y|e] eqn:E.
  - rewrite (propagate_more (Datatypes.S n) (Datatypes.S m)) by (try exact L; rewrite E; discriminate). rewrite E. cbn [bind] in *. destruct (make_next_decision S V O P root y) as [[z [q|]]|e]; cbn [bind fst snd] in *; try reflexivity. apply IH; [lia|assumption].
  - rewrite (propagate_more (Datatypes.S n) (Datatypes.S m)) by (try exact L; rewrite E; intro X; injection X as ->; apply H; reflexivity). rewrite E. reflexivity.
Qed.
Lemma solve_more : forall n m, n <= m -> solve S V O P root pick n <> Err RecursionErr -> solve S V O P root pick m = solve S V O P root pick n.
Proof.
  intros n m L H. unfold solve in *. destruct (start S V O P root) as [x|e]; cbn [bind] in *; [|reflexivity]. destruct (solve_loop n x root) as [y|e] eqn:E.
  - rewrite (loop_more n m), E by (try exact L; rewrite E; discriminate). reflexivity.
  - rewrite (loop_more n m), E by (try exact L; rewrite E; intro X; injection X as ->; apply H; reflexivity). reflexivity.
Qed.

(** one round *)
Definition round (bound : nat) (xp : state S V * pkg) : res (state S V * pkg) :=
  do x <- propagate bound (fst xp) [snd xp];
  do xn <- make_next_decision S V O P root x;
  match snd xn with None => Err OtherErr | Some p => Ok (fst xn, p) end.
Lemma round_step : forall b k xp yp, b <= Datatypes.S k -> round b xp = Ok yp -> solve_loop (Datatypes.S k) (fst xp) (snd xp) = solve_loop k (fst yp) (snd yp).
Proof.
  intros b k xp yp L H. unfold round in H. cbn [PubgrubModel.solve_loop]. destruct (propagate b (fst xp) [snd xp]) as [x|e] eqn:E; [|discriminate]. rewrite (propagate_more b) by (try exact L; rewrite E; discriminate). rewrite E. cbn [bind] in *.
  destruct (make_next_decision S V O P root x) as [[y [q|]]|e]; cbn [bind fst snd] in *; try discriminate. injection H as <-. reflexivity.
Qed.
(** a round that changes nothing is repeated for ever *)
Lemma stuck : forall b xp n, round b xp = Ok xp -> solve_loop n (fst xp) (snd xp) = Err RecursionErr.
Proof.
  intros b xp n H. induction n as [|n IH]; [reflexivity|]. destruct (propagate (Datatypes.S n) (fst xp) [snd xp]) as [x|e] eqn:E.
  - rewrite <- IH. destruct (le_lt_dec b (Datatypes.S n)) as [L|L]; [exact (round_step b n xp xp L H)|]. apply (round_step (Datatypes.S n) n xp xp (le_n _)). unfold round in *. rewrite E. rewrite (propagate_more (Datatypes.S n) b), E in H by (try lia; rewrite E; discriminate). exact H.
  - cbn [PubgrubModel.solve_loop]. rewrite E. cbn [bind]. destruct (le_lt_dec b (Datatypes.S n)) as [L|L].
    + unfold round in H. destruct (propagate b (fst xp) [snd xp]) as [x|e'] eqn:F; [|discriminate]. rewrite (propagate_more b (Datatypes.S n)), F in E by (try lia; rewrite F; discriminate). discriminate.
    + destruct e; try reflexivity; exfalso; unfold round in H; rewrite (propagate_more (Datatypes.S n) b), E in H by (try lia; rewrite E; discriminate); discriminate.
Qed.
Lemma leads : forall b xp yp, round b xp = Ok yp -> (forall n, solve_loop n (fst yp) (snd yp) = Err RecursionErr) -> forall n, solve_loop n (fst xp) (snd xp) = Err RecursionErr.
Proof.
  intros b xp yp H G n. assert (M : solve_loop n (fst xp) (snd xp) <> Err RecursionErr -> False).
  { intro X. apply X. rewrite <- (loop_more n (Datatypes.S (n + b)) _ _ ltac:(lia) X). rewrite (round_step b (n + b) xp yp ltac:(lia) H). apply G. }
  destruct (solve_loop n (fst xp) (snd xp)) as [y|[]]; try reflexivity; exfalso; apply M; discriminate.
Qed.
End Fuel.

(** the rounds with every order of [changed.pop()] *)
Section Explore.
Context {S V : Type} (O : ops S V) (P : problem S V) (root : pkg).
Variable same : forall x y : state S V * pkg, {x = y} + {x <> y}.
Fixpoint outcomes (fuel : nat) (x : state S V) (changed : list pkg) : list (res (state S V)) :=
  match changed with
  | [] => [Ok x]
  | c :: _ =>
      match fuel with
      | 0 => [Err RecursionErr]
      | Datatypes.S k =>
          flat_map (fun j => match process S V O root fuel (rev (plist (nth j changed c) (x_incs S V x))) x (remove_nth j changed) with
                             | Ok xc => outcomes k (fst xc) (snd xc)
                             | Err e => [Err e]
                             end) (seq 0 (length changed))
      end
  end.
Lemma outcomes_all : forall pick fuel x changed, In (propagate S V O root pick fuel x changed) (outcomes fuel x changed).
Proof.
  intro pick. induction fuel as [|k IH]; intros x changed; destruct changed as [|c changed]; [left; reflexivity|left; reflexivity|left; reflexivity|]. cbn [propagate outcomes]. cbv zeta. apply in_flat_map. exists (pick (c :: changed) mod length (c :: changed)). split.
  - apply in_seq. split; [lia|]. apply Nat.mod_upper_bound. discriminate.
  - destruct (process _ _ _ _ _ _ _ _) as [xc|e]; cbn [bind]; [apply IH|left; reflexivity].
Qed.
Definition follow (r : res (state S V)) : res (state S V * pkg) :=
  do x <- r;
  do xn <- make_next_decision S V O P root x;
  match snd xn with None => Err OtherErr | Some p => Ok (fst xn, p) end.
Definition is_same (xp : state S V * pkg) (r : res (state S V * pkg)) : bool := match r with Ok yp => if same xp yp then true else false | Err _ => false end.
(** every way leads within [n] rounds to a state that the next round does not change *)
Fixpoint explore (n b : nat) (xp : state S V * pkg) : bool :=
  match n with
  | 0 => false
  | Datatypes.S n =>
      let l := map follow (outcomes b (fst xp) [snd xp]) in
      forallb (is_same xp) l || forallb (fun r => match r with Ok yp => explore n b yp | Err _ => false end) l
  end.
Lemma explore_endless : forall pick n b xp, explore n b xp = true -> forall fuel, solve_loop S V O P root pick fuel (fst xp) (snd xp) = Err RecursionErr.
Proof.
  intros pick n b. induction n as [|n IH]; intros xp H fuel; [discriminate|]. cbn [explore] in H. cbv zeta in H.
  assert (I : In (round O P root pick b xp) (map follow (outcomes b (fst xp) [snd xp]))) by (apply in_map_iff; exists (propagate S V O root pick b (fst xp) [snd xp]); split; [reflexivity|apply outcomes_all]).
  apply orb_true_iff in H. destruct H as [H|H]; rewrite forallb_forall in H; specialize (H _ I).
  - destruct (round O P root pick b xp) as [yp|e] eqn:E; [|discriminate]. cbn in H. destruct (same xp yp) as [<-|]; [|discriminate]. exact (stuck O P root pick b xp fuel E).
  - destruct (round O P root pick b xp) as [yp|e] eqn:E; [|discriminate]. exact (leads O P root pick b xp yp E (IH yp H) fuel).
Qed.
Lemma endless : forall n b x, start S V O P root = Ok x -> explore n b (x, root) = true -> forall pick fuel, solve S V O P root pick fuel = Err RecursionErr.
Proof. intros n b x A B pick fuel. unfold solve. rewrite A. cbn [bind]. rewrite (explore_endless pick n b (x, root) B fuel : solve_loop _ _ _ _ _ _ _ x root = _). reflexivity. Qed.
End Explore.

(** equality of states *)
Definition pair_dec {A B} (da : forall a b : A, {a = b} + {a <> b}) (db : forall a b : B, {a = b} + {a <> b}) : forall x y : A * B, {x = y} + {x <> y}.
Proof. decide equality. Defined.
Definition opt_dec {A} (da : forall a b : A, {a = b} + {a <> b}) : forall x y : option A, {x = y} + {x <> y}.
Proof. decide equality. Defined.
Definition state_dec {S V} (ds : forall a b : S, {a = b} + {a <> b}) (dv : forall a b : V, {a = b} + {a <> b}) : forall x y : state S V * pkg, {x = y} + {x <> y}.
Proof.
  assert (dt : forall a b : term S, {a = b} + {a <> b}) by (decide equality; apply N.eq_dec).
  assert (da : forall a b : assignment S, {a = b} + {a <> b}) by (decide equality; solve [apply Nat.eq_dec|apply opt_dec, Nat.eq_dec|apply dt|apply ds|apply Bool.bool_dec]).
  assert (dp : forall a b : psol S, {a = b} + {a <> b}) by (decide equality; repeat first [apply list_eq_dec|apply pair_dec|apply N.eq_dec|apply Nat.eq_dec|apply da]).
  assert (di : forall a b : incompat S, {a = b} + {a <> b}) by (decide equality; repeat first [apply list_eq_dec|apply opt_dec|apply pair_dec|apply dt|apply Bool.bool_dec]).
  assert (dw : forall a b : pversion S V, {a = b} + {a <> b}) by (decide equality; repeat first [apply list_eq_dec|apply opt_dec|apply pair_dec|apply ds|apply dv|apply N.eq_dec|apply Nat.eq_dec]).
  apply pair_dec; [|apply N.eq_dec]. decide equality; repeat first [apply dp|apply di|apply dw|apply list_eq_dec|apply opt_dec|apply pair_dec|apply N.eq_dec|apply Nat.eq_dec].
Defined.
Definition fset_dec : forall a b : fset, {a = b} + {a <> b} := pair_dec Bool.bool_dec (list_eq_dec N.eq_dec).
Definition str_dec : forall a b : str, {a = b} + {a <> b} := list_eq_dec Ascii.ascii_dec.
Definition sv_dec : forall a b : sv, {a = b} + {a <> b}.
Proof. decide equality; repeat first [apply str_dec|apply list_eq_dec|apply opt_dec|apply pair_dec|apply N.eq_dec]. Defined.
Definition version_dec : forall a b : version, {a = b} + {a <> b}.
Proof. decide equality; repeat first [apply sv_dec|apply str_dec|apply opt_dec]. Defined.
Fixpoint spec_dec (a b : spec) {struct a} : {a = b} + {a <> b}.
Proof. decide equality; solve [apply list_eq_dec, spec_dec|apply list_eq_dec, version_dec|apply spec_dec|apply version_dec|apply Bool.bool_dec|apply opt_dec, sv_dec]. Defined.
