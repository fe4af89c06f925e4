(** Properties of the report about a project (C306). *)
From Coq Require Import String Ascii List Bool NArith Arith Lia.
From Verif Require Import Base BaseFacts PthModel VersionModel SpecifierModel MarkerModel DependencyModel MarkupModel MarkupProps ReportModel ReportProps StatusModel.
Import ListNotations.
Open Scope string_scope. Open Scope nat_scope. Open Scope list_scope. Open Scope bool_scope.

(** one line for each dependency, in order, first the required ones; nothing at all if there are none *)
Theorem C306_lines : forall site dependencies optional r, show_dependencies site dependencies optional r =
  (Report (indentation r) (printed r ++ match dependencies, optional with
     | [], [] => []
     | _, _ => [indentation r ++ lit "[dark_olive_green2]Dependencies[/]"; indentation r ++ lit "------------"] ++
         map (fun d => indentation r ++ lit " - " ++ status_line d (site (d_name d)) None) dependencies ++
         flat_map (fun g => map (fun d => indentation r ++ lit " - " ++ status_line d (site (d_name d)) (Some (fst g))) (snd g)) optional ++ [indentation r]
     end), false).
Proof.
  intros site ds os [i p]. cbn [indentation printed].
  assert (S : section (lit "Dependencies") (ulist (lit "-") None (map Item (status_lines site ds os))) (Report i p) =
    (Report i (p ++ [i ++ lit "[dark_olive_green2]Dependencies[/]"; i ++ lit "------------"] ++ map (fun t => i ++ lit " - " ++ t) (status_lines site ds os) ++ [i]), false)).
  { unfold section. change (map Item (status_lines site ds os)) with (texts (status_lines site ds os)). rewrite C303_ulist. unfold header, writeln. cbn [indentation printed Nat.ltb Nat.leb].
    f_equal. f_equal. rewrite app_nil_r. rewrite <- !app_assoc. cbn [app]. f_equal. f_equal. f_equal.
    destruct (status_lines site ds os); reflexivity. }
  unfold show_dependencies. destruct ds as [|d ds]; [destruct os as [|o os]|]; [rewrite app_nil_r; reflexivity| |]; rewrite S; unfold status_lines; rewrite map_app, map_map, <- !app_assoc; repeat f_equal.
  - clear. induction (o :: os) as [|g l IH]; [reflexivity|]. cbn [flat_map]. rewrite map_app, map_map, IH. reflexivity.
  - clear. induction os as [|g l IH]; [reflexivity|]. cbn [flat_map]. rewrite map_app, map_map, IH. reflexivity.
Qed.
Print Assumptions C306_lines.
(** a line tells the dependency, its state and its kind *)
Theorem C306_state : forall d installed group, status_line d installed group = join (lit " | ")
  [dep_str d; match installed with Some v => lit "Installed Version: " ++ version_str v | None => lit "Not Installed" end;
   match group with Some g => if str_eqb g [] then lit "Required" else lit "Optional by " ++ g | None => lit "Required" end].
Proof.
  intros d [v|] [[|c g]|]; unfold status_line; cbn [join str_eqb]; rewrite <- ?app_assoc; reflexivity.
Qed.
Print Assumptions C306_state.
(** a line without brackets is shown as it is *)
Theorem C306_shown_partial : forall normalize d installed group, ~ In "["%char (status_line d installed group) ->
  print normalize true (lit " - " ++ status_line d installed group) = Ok (lit " - " ++ status_line d installed group).
Proof.
  intros n d i g H. apply C288_exactly. assert (N : ~ In "["%char (lit " - " ++ status_line d i g)).
  { intro X. apply in_app_or in X. destruct X as [X|X]; [|exact (H X)]. cbn in X. repeat destruct X as [X|X]; try discriminate X. exact X. }
  split.
  - intros pre c t post E _. exfalso. apply N. rewrite E. apply in_or_app. right. left. reflexivity.
  - intros pre post E. apply N. rewrite E. apply in_or_app. right. right. left. reflexivity.
Qed.
Print Assumptions C306_shown_partial.
(** the extras of a dependency are not: each line with extras that begin with a small letter is changed *)
Theorem C306_extras_refuted : forall normalize d installed group c e l, d_extras d = Some ((c :: e) :: l) -> is_lower c = true -> (forall x, In x ((c :: e) :: l) -> ~ In "["%char x) ->
  print normalize true (lit " - " ++ status_line d installed group) <> Ok (lit " - " ++ status_line d installed group).
Proof.
  intros n d i g c e l X L B H. apply C288_exactly in H. destruct H as [H _].
  assert (J : exists t, join (lit ",") ((c :: e) :: l) = c :: t /\ ~ In "["%char t).
  { assert (Q : ~ In "["%char (join (lit ",") ((c :: e) :: l))).
    { clear - B. revert B. generalize ((c :: e) :: l). intros k. induction k as [|x k IH]; intros B I; [destruct I|]. destruct k as [|y k].
      - exact (B x (or_introl eq_refl) I).
      - change (join (lit ",") (x :: y :: k)) with (x ++ lit "," ++ join (lit ",") (y :: k)) in I. apply in_app_or in I. destruct I as [I|I]; [exact (B x (or_introl eq_refl) I)|]. destruct I as [I|I]; [discriminate I|].
        apply IH; [intros z Z; apply B; right; exact Z|exact I]. }
    destruct l as [|y l]; [exists e|exists (e ++ lit "," ++ join (lit ",") (y :: l))]; (split; [reflexivity|]); intro I; apply Q; right; exact I. }
  destruct J as (t & E & T). apply T.
  set (tail := (if is_allow (d_spec d) then [] else lit " " ++ spec_str (d_spec d)) ++ match d_marker d with None => [] | Some m => lit ";" ++ marker_str m end).
  set (rest := lit " | " ++ match i with Some v => lit "Installed Version: " ++ version_str v ++ lit " | " | None => lit "Not Installed | " end ++ match g with Some (c :: g) => lit "Optional by " ++ c :: g | _ => lit "Required" end).
  apply (H (lit " - " ++ d_name d) c t (tail ++ rest)).
  - unfold status_line, dep_str. rewrite X, E. fold tail. fold rest. rewrite <- !app_assoc. cbn [app lit list_ascii_of_string]. rewrite <- ?app_assoc. reflexivity.
  - unfold tag_start. rewrite L. reflexivity.
Qed.
Print Assumptions C306_extras_refuted.
(** an installed version that the dependency rules out is reported like every other *)
Theorem C306_unfit_refuted : exists d v, allows (d_spec d) v = false /\ status_line d (Some v) None = lit "numpy <1.24 | Installed Version: 1.26 | Required".
Proof. exists (Dep (lit "numpy") (Range None (Some (SV [1%N; 24%N] None None None None None)) false false) None None), (VStd (SV [1%N; 26%N] None None None None None)). vm_compute. split; reflexivity. Qed.
Print Assumptions C306_unfit_refuted.
(** options are shown in brackets *)
Theorem C306_options : forall normalize, Forall (fun name => print normalize true (option_help name (lit "Displays something")) = Ok (lit "[" ++ name ++ lit "]: Displays something"))
  [lit "lock"; lit "all-installed"; lit "attached-repository"; lit "package-containers"; lit "scripts"].
Proof. intro n. repeat constructor. Qed.
Print Assumptions C306_options.
(** the name of a context is the one of its class, with a space before each further capital *)
Lemma spaced_back : forall s, ~ In " "%char s -> filter (fun c => negb (Ascii.eqb c " ")) (spaced s) = s.
Proof.
  induction s as [|c s IH]; intro H; [reflexivity|]. cbn [spaced flat_map]. assert (N : Ascii.eqb c " " = false) by (apply Ascii.eqb_neq; intro E; apply H; left; exact E).
  fold (spaced s). assert (R : filter (fun c => negb (Ascii.eqb c " ")) (spaced s) = s) by (apply IH; intro X; apply H; right; exact X).
  destruct (is_upper c); cbn [app filter]; rewrite N; cbn [negb]; rewrite R; reflexivity.
Qed.
Theorem C306_context : forall s, existsb is_space s = false -> filter (fun c => negb (Ascii.eqb c " ")) (context_name s) = s /\
  (forall x r, context_name s = x :: r -> is_space x = false) /\ (forall a b x, context_name s = a ++ x :: b -> is_upper x = true -> a = [] \/ exists a', a = a' ++ [" "%char]).
Proof.
  intros s H. assert (A : forall c, In c s -> is_space c = false) by (intros c I; destruct (is_space c) eqn:E; [|reflexivity]; assert (X : existsb is_space s = true) by (apply existsb_exists; eauto); congruence).
  assert (N : ~ In " "%char s) by (intro I; apply A in I; discriminate I). destruct s as [|c s]; [split; [reflexivity|split; [intros x r X; discriminate X|intros [|y a] b x X; discriminate X]]|].
  assert (B : spaced (c :: s) = (if is_upper c then [" "%char] else []) ++ c :: spaced s) by (cbn [spaced flat_map]; fold (spaced s); destruct (is_upper c); reflexivity).
  assert (L : lstrip_ws (spaced (c :: s)) = c :: spaced s).
  { rewrite B. assert (C := A c (or_introl eq_refl)). destruct (is_upper c); cbn [app lstrip_ws]; rewrite ?C; reflexivity. }
  assert (F : filter (fun c => negb (Ascii.eqb c " ")) (c :: spaced s) = c :: s).
  { pose proof (spaced_back (c :: s) N) as Q. rewrite B, filter_app in Q. destruct (is_upper c); exact Q. }
  unfold context_name, strip_ws. rewrite L.
  assert (K : lstrip_ws (rev (c :: spaced s)) = rev (c :: spaced s)).
  { assert (W : forall t x, is_space x = false -> (forall y, In y t -> is_space y = false) -> exists y r, rev (x :: spaced t) = y :: r /\ is_space y = false).
    { clear. induction t as [|y t IH]; intros x X Y; [exists x, []; auto|]. cbn [spaced flat_map]. fold (spaced t). destruct (IH y (Y y (or_introl eq_refl)) (fun z Z => Y z (or_intror Z))) as (u & r & E & U).
      destruct (is_upper y); cbn [app].
      - change (rev (x :: " "%char :: y :: spaced t)) with ((rev (y :: spaced t) ++ [" "%char]) ++ [x]). rewrite E. do 2 eexists. split; [reflexivity|exact U].
      - change (rev (x :: y :: spaced t)) with (rev (y :: spaced t) ++ [x]). rewrite E. do 2 eexists. split; [reflexivity|exact U]. }
    destruct (W s c (A c (or_introl eq_refl)) (fun y Y => A y (or_intror Y))) as (y & r & E & Y). rewrite E. cbn [lstrip_ws]. rewrite Y. reflexivity. }
  rewrite K, rev_involutive. split; [exact F|]. split; [intros x r X; injection X as <- _; exact (A c (or_introl eq_refl))|].
  intros [|y a] b x X U; [left; reflexivity|right]. cbn [app] in X. injection X as <- X. clear - X U.
  assert (G : forall t a b, spaced t = a ++ x :: b -> exists a', a = a' ++ [" "%char]).
  { induction t as [|z t IH]; intros a0 b0 E; [destruct a0; discriminate E|]. cbn [spaced flat_map] in E. fold (spaced t) in E. destruct (is_upper z) eqn:Z; cbn [app] in E.
    - destruct a0 as [|p [|q a0]].
      + cbn [app] in E. injection E as E _. subst x. discriminate U.
      + cbn [app] in E. injection E as <- _ _. exists []. reflexivity.
      + cbn [app] in E. injection E as <- <- E. destruct (IH _ _ E) as [a' Q]. exists (" "%char :: z :: a'). rewrite Q. reflexivity.
    - destruct a0 as [|p a0].
      + cbn [app] in E. injection E as E _. subst x. congruence.
      + cbn [app] in E. injection E as <- E. destruct (IH _ _ E) as [a' Q]. exists (z :: a'). rewrite Q. reflexivity. }
  destruct (G _ _ _ X) as [a' Q]. exists (c :: a'). rewrite Q. reflexivity.
Qed.
Print Assumptions C306_context.
Example C306_example :
  let d := Dep (lit "requests") (Range (Some (SV [2%N] None None None None None)) None true false) (Some [lit "socks"]) None in
  status_line d None (Some (lit "net")) = lit "requests[socks] >=2 | Not Installed | Optional by net" /\
  print (fun s => s) true (lit " - " ++ status_line d None None) = Ok (lit " - requests >=2 | Not Installed | Required") /\
  context_name (lit "ProjectGroup") = lit "Project Group" /\
  printed (fst (show_dependencies (fun _ => None) [Dep (lit "six") AllowAll None None] [(lit "net", [d])] (Report [] []))) =
    [lit "[dark_olive_green2]Dependencies[/]"; lit "------------"; lit " - six | Not Installed | Required"; lit " - requests[socks] >=2 | Not Installed | Optional by net"; []].
Proof. vm_compute. repeat split. Qed.
