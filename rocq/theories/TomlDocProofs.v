(** Reading back what the TOML writer writes: documents. *)
From Coq Require Import String Ascii List Bool NArith ZArith Arith Lia.
From Verif Require ProjectProofs.
From Verif Require Import Base BaseFacts ParserModel ParserFacts MarkerModel MarkerProofs TomlModel TomlProofs.
Import ListNotations.
Open Scope string_scope.
Open Scope nat_scope.
Open Scope list_scope.
Open Scope bool_scope.

(** * The text of a document as a list of sections *)
Definition sec := (list str * bool * list (str * tv))%type.
Definition head_text (ns : list str) (item : bool) : str :=
  if item then lit "[[" ++ join (lit ".") (map key_part ns) ++ lit "]]" else lit "[" ++ join (lit ".") (map key_part ns) ++ lit "]".
Definition line (e : str * tv) : str := pair_text e ++ [nl].
Definition lines (l : list (str * tv)) : str := concat (map line l).
Definition assigns_text (l : list (str * tv)) : str := match l with [] => [] | _ => lines l ++ [nl] end.
Definition sec_text (s : sec) : str := let '(ns, item, l) := s in head_text ns item ++ nl :: assigns_text l.
(** the last section, without the line ends at its end *)
Definition last_lines (l : list (str * tv)) (e : str * tv) : str := lines l ++ pair_text e.
Definition key_of (ns : list str) (item : bool) : list kpart := map KName ns ++ (if item then [KItem] else []).
Definition val_ok (e : str * tv) : Prop := str_ok (fst e) /\ inline_ok (snd e).
Definition assigns_ok (l : list (str * tv)) : Prop := Forall val_ok l /\ NoDup (map fst l).
Definition sec_ok (s : sec) : Prop := let '(ns, item, l) := s in Forall str_ok ns /\ ns <> [] /\ assigns_ok l.

Lemma join_member : forall A (f : A -> str) sep l x, In x l -> length (f x) <= length (join sep (map f l)).
Proof.
  intros A f sep. induction l as [|y l IH]; [contradiction|]. intros x H. destruct l as [|z l].
  - destruct H as [->|[]]. cbn. lia.
  - change (join sep (map f (y :: z :: l))) with (f y ++ sep ++ join sep (map f (z :: l))). rewrite !app_length.
    destruct H as [->|H]; [lia|]. specialize (IH x H). lia.
Qed.
Lemma depth_body : forall v, depth v <= length (body v).
Proof.
  induction v as [s|z|b|l IH|t IH] using tv_ind'; try (cbn; lia).
  - rewrite body_list, !app_length. change (depth (TList l)) with (S (fold_right (fun x m => max (depth x) m) 0 l)).
    assert (H : fold_right (fun x m => max (depth x) m) 0 l <= length (join (lit ", ") (map body l))); [|change (length (lit "[")) with 1; change (length (lit "]")) with 1; lia].
    assert (J : forall x, In x l -> depth x <= length (join (lit ", ") (map body l))).
    { intros x Hx. rewrite Forall_forall in IH. pose proof (IH x Hx). pose proof (join_member _ body (lit ", ") l x Hx). lia. }
    revert J. generalize (length (join (lit ", ") (map body l))). clear IH. intros n. induction l as [|x l IH]; intros J; [cbn; lia|].
    cbn [fold_right]. pose proof (J x (or_introl eq_refl)). assert (fold_right (fun x m => max (depth x) m) 0 l <= n) by (apply IH; intros; apply J; now right). lia.
  - rewrite body_tab, !app_length. change (depth (TTab t)) with (S (fold_right (fun e m => max (depth (snd e)) m) 0 t)).
    assert (H : fold_right (fun e m => max (depth (snd e)) m) 0 t <= length (join (lit ", ") (map pair_text t))); [|change (length (lit "{")) with 1; change (length (lit "}")) with 1; lia].
    assert (J : forall x, In x t -> depth (snd x) <= length (join (lit ", ") (map pair_text t))).
    { intros x Hx. rewrite Forall_forall in IH. pose proof (IH x Hx). pose proof (join_member _ pair_text (lit ", ") t x Hx) as J.
      unfold pair_text at 1 in J. rewrite app_length in J. cbn [length] in J. lia. }
    revert J. generalize (length (join (lit ", ") (map pair_text t))). clear IH. intros n. induction t as [|x l IH]; intros J; [cbn; lia|].
    cbn [fold_right]. pose proof (J x (or_introl eq_refl)). assert (fold_right (fun e m => max (depth (snd e)) m) 0 l <= n) by (apply IH; intros; apply J; now right). lia.
Qed.
Lemma lines_member : forall l e, In e l -> length (body (snd e)) < length (lines l) /\ 1 <= length (lines l).
Proof.
  unfold lines. induction l as [|x l IH]; [contradiction|]. cbn [map concat]. intros e [->|H]; rewrite app_length.
  - unfold line, pair_text. rewrite !app_length. cbn [length]. lia.
  - specialize (IH e H). lia.
Qed.
Lemma lines_length : forall l, length l <= length (lines l).
Proof. unfold lines. induction l as [|x l IH]; [cbn; lia|]. cbn [map concat length]. rewrite app_length. unfold line at 1. rewrite app_length. cbn [length]. lia. Qed.
Lemma pairs_ok_at : forall l n, Forall val_ok l -> (forall e, In e l -> length (body (snd e)) < n) -> Forall (pair_ok (read_value n)) l.
Proof.
  intros l n F H. rewrite Forall_forall in *. intros e He. destruct (F e He) as [K I]. split; [exact K|]. apply read_inline; [exact I|].
  pose proof (depth_body (snd e)). specialize (H e He). lia.
Qed.
Lemma line_eq : forall e R, line e ++ R = pair_text e ++ nl :: R.
Proof. intros e R. unfold line. now rewrite <- app_assoc. Qed.
Lemma lines_read : forall value l, Forall (pair_ok value) l -> forall fuel t0 R, NoDup (map fst (t0 ++ l)) -> length l <= fuel ->
  assign_loop value false fuel (TTab t0) (lines l ++ R) = assign_loop value false (fuel - length l) (TTab (t0 ++ l)) R.
Proof.
  intros value. induction l as [|e l IH]; intros F fuel t0 R ND L.
  - cbn. now rewrite app_nil_r, Nat.sub_0_r.
  - apply Forall_cons_iff in F as [Fe F]. destruct fuel as [|fuel]; [cbn in L; lia|]. cbn [length] in L.
    unfold lines. cbn [map concat]. fold (lines l). rewrite <- app_assoc, line_eq.
    assert (N : ~ In (fst e) (map fst t0)).
    { rewrite map_app in ND. cbn [map] in ND. apply NoDup_remove_2 in ND. intros X. apply ND. apply in_app_iff. now left. }
    rewrite assign_step; [|exact Fe|reflexivity|exact N]. change (smatch [nl] (nl :: lines l ++ R)) with (Some (lines l ++ R)). cbv iota beta.
    rewrite IH; [now rewrite <- app_assoc|exact F| |lia]. now rewrite <- app_assoc.
Qed.
Definition begins (R : str) : Prop := R = [] \/ exists r, R = "["%char :: r.
Lemma loop_ends : forall value fuel t R, begins R -> assign_loop value false fuel (TTab t) R = Ok (TTab t, R)
  /\ assign_loop value false fuel (TTab t) (nl :: R) = Ok (TTab t, nl :: R).
Proof.
  intros value fuel t R [->|(r & ->)].
  - split; destruct fuel; reflexivity.
  - split; destruct fuel; cbn [assign_loop]; rewrite ?skip_plain, ?skip_newline by reflexivity; reflexivity.
Qed.
Lemma assigns_read : forall l n R, assigns_ok l -> begins R -> length (assigns_text l) < n -> read_assignments (read_value n) false (assigns_text l ++ R) = Ok (TTab l, R).
Proof.
  intros l n R [F ND] B Ln. unfold read_assignments. destruct l as [|e l].
  - cbn [assigns_text app]. destruct (loop_ends (read_value n) (S (length R)) [] R B) as [E _]. rewrite E. cbn [bind].
    destruct B as [->|(r & ->)]; reflexivity.
  - unfold assigns_text in *. rewrite <- app_assoc. cbn [app]. rewrite app_length in Ln. rewrite lines_read.
    + cbn [app]. destruct (loop_ends (read_value n) (S (length (lines (e :: l) ++ nl :: R)) - length (e :: l)) (e :: l) R B) as [_ E]. rewrite E. cbn [bind].
      now rewrite (smatch_same nl).
    + apply pairs_ok_at; [exact F|]. intros x Hx. destruct (lines_member _ x Hx). lia.
    + exact ND.
    + pose proof (lines_length (e :: l)). rewrite app_length. lia.
Qed.
Lemma number_end : forall z, read_number (show_Z z) = Err TypeError.
Proof.
  intros z. unfold read_number. destruct (show_Z_ends z) as (c & t & E & _).
  assert (X : match show_Z z with [] => Ok (TStr [], []) | _ :: _ => Err TypeError end = @Err (tv * str) TypeError) by (rewrite E; reflexivity).
  assert (pos : forall n, (match smatch "-" (show_N n) with
      | Some r => (true, false, r)
      | None => match smatch "+" (show_N n) with Some r => (false, true, r) | None => (false, false, show_N n) end
      end) = (false, false, show_N n)).
  { intros n. destruct (show_N_cons n) as (d & ds & E2 & Dd & _). rewrite E2.
    rewrite (smatch_other "-"), (smatch_other "+"); [reflexivity| |]; rewrite Ascii.eqb_sym; destruct (Ascii.eqb d _) eqn:Q; auto; apply Ascii.eqb_eq in Q; subst d; discriminate. }
  assert (sp : forall n, span number_char (show_N n) = (show_N n, [])).
  { intros n. rewrite <- (app_nil_r (show_N n)) at 1. apply span_app; [apply digits_numbers|reflexivity]. }
  destruct z as [|p|p]; cbn [show_Z] in *.
  - reflexivity.
  - rewrite pos. cbv iota beta. rewrite sp. cbv iota beta. exact X.
  - rewrite (smatch_same "-"). cbv iota beta. rewrite sp. cbv iota beta. reflexivity.
Qed.
Lemma last_read : forall l e n, assigns_ok (l ++ [e]) -> length (last_lines l e) < n ->
  read_assignments (read_value n) false (last_lines l e) = if is_int (snd e) then Err TypeError else Ok (TTab (l ++ [e]), []).
Proof.
  intros l e n [F ND] Ln. unfold read_assignments, last_lines in *. rewrite app_length in Ln.
  assert (Fl : Forall val_ok l /\ val_ok e) by (apply Forall_app in F as [F1 F2]; split; [exact F1|now inversion F2]). destruct Fl as [Fl Fe].
  assert (NDl : NoDup (map fst l) /\ ~ In (fst e) (map fst l)).
  { rewrite map_app in ND. cbn [map] in ND. split; [apply NoDup_remove_1 in ND; now rewrite app_nil_r in ND|apply NoDup_remove_2 in ND; now rewrite app_nil_r in ND]. }
  destruct NDl as [NDl NI].
  rewrite lines_read; [| |exact NDl|].
  - cbn [app]. set (m := S (length (lines l ++ pair_text e)) - length l).
    assert (exists k, m = S k) as [k Ek] by (unfold m; rewrite app_length; pose proof (lines_length l); exists (length (lines l) + length (pair_text e) - length l); lia).
    rewrite Ek. assert (Lb : length (body (snd e)) < length (pair_text e)) by (unfold pair_text; rewrite app_length; cbn [length]; lia).
    destruct (is_int (snd e)) eqn:I.
    + destruct e as [key v]. destruct v as [|z| | |]; try discriminate. destruct Fe as [Ke _]. cbn [fst snd] in *. unfold pair_text. cbn [fst snd body].
      pose proof (read_key_assign key (" "%char :: show_Z z) Ke) as RK. destruct (key_part_cons key) as (c & tl & E & P & NB & _).
      assert (S1 : skip true (key_part key ++ " "%char :: "="%char :: " "%char :: show_Z z) = Ok (key_part key ++ " "%char :: "="%char :: " "%char :: show_Z z)) by (rewrite E; now apply skip_plain).
      remember (key_part key ++ " "%char :: "="%char :: " "%char :: show_Z z) as s. destruct s as [|a s]; [rewrite E in Heqs; discriminate|].
      cbn [assign_loop]. rewrite S1. cbn [bind]. assert (a = c) by (rewrite E in Heqs; cbn in Heqs; congruence). subst a. rewrite NB, RK. cbn [bind].
      change (match_or_err (lit "=") ("="%char :: " "%char :: show_Z z)) with (Ok (" "%char :: show_Z z)). cbn [bind].
      destruct n as [|n]; [lia|]. rewrite read_value_eq. destruct (show_Z_ends z) as (d & t & Ez & Dz & _).
      assert (Pd : plain d = true) by (apply orb_true_iff in Dz as [Dz|Dz]; revert Dz; by_char d).
      rewrite Ez, skip_blank by exact Pd. cbn [bind]. unfold dispatch.
      assert (Y : Ascii.eqb d "+" || Ascii.eqb d "-" || is_digit d = true) by (apply orb_true_iff in Dz as [Dz|Dz]; rewrite Dz; now rewrite ?orb_true_r).
      rewrite Y, <- Ez, number_end. reflexivity.
    + pose proof (assign_step (read_value n) false k l e []) as AS. rewrite app_nil_r in AS. rewrite AS; [reflexivity| |exact I|exact NI].
      assert (Forall (pair_ok (read_value n)) [e]) as Q by (apply pairs_ok_at; [now constructor|]; intros x [<-|[]]; lia). now inversion Q.
  - apply pairs_ok_at; [exact Fl|]. intros x Hx. destruct (lines_member _ x Hx). lia.
  - pose proof (lines_length l). rewrite app_length. lia.
Qed.

(** * Sections are entered one after the other *)
Fixpoint enter_all (D : tv) (ss : list sec) : res tv :=
  match ss with
  | [] => Ok D
  | (ns, item, l) :: r => do D <- enter_data D (key_of ns item) (TTab l); enter_all D r
  end.
Lemma enter_all_app : forall a b D, enter_all D (a ++ b) = do D2 <- enter_all D a; enter_all D2 b.
Proof.
  induction a as [|[[ns item] l] a IH]; intros b D; [reflexivity|]. cbn [app enter_all].
  destruct (enter_data D (key_of ns item) (TTab l)) as [D2|x]; cbn [bind]; [apply IH|reflexivity].
Qed.
Lemma head_read : forall ns item R, Forall str_ok ns -> ns <> [] -> (R = [] \/ exists r, R = nl :: r) ->
  read_key (head_text ns item ++ R) = Ok (key_of ns item, R).
Proof.
  intros ns item R F N H. unfold head_text, key_of. destruct item.
  - rewrite <- !app_assoc. now apply read_key_item.
  - rewrite <- !app_assoc, app_nil_r. now apply read_key_table.
Qed.
Lemma head_text_cons : forall ns item, exists t, head_text ns item = "["%char :: t.
Proof. intros ns [|]; eexists; reflexivity. Qed.
Lemma table_read : forall ns item l R, sec_ok (ns, item, l) -> begins R ->
  read_table (sec_text (ns, item, l) ++ R) = Ok (key_of ns item, TTab l, R).
Proof.
  intros ns item l R (F & N & A) B. unfold read_table, sec_text. rewrite <- app_assoc. cbn [app].
  destruct (head_text_cons ns item) as (t & Et).
  assert (S1 : skip true (head_text ns item ++ nl :: assigns_text l ++ R) = Ok (head_text ns item ++ nl :: assigns_text l ++ R)) by (rewrite Et; now apply skip_plain).
  rewrite S1. cbn [bind]. rewrite head_read; [|exact F|exact N|right; now eexists]. cbn [bind].
  change (match_or_err [nl] (nl :: assigns_text l ++ R)) with (Ok (assigns_text l ++ R)). cbn [bind].
  rewrite assigns_read; [reflexivity|exact A|exact B|]. rewrite app_length. lia.
Qed.
Lemma sec_text_cons : forall s, exists t, sec_text s = "["%char :: t.
Proof. intros [[ns item] l]. unfold sec_text. destruct (head_text_cons ns item) as (t & ->). eexists. reflexivity. Qed.
Lemma secs_begin : forall ss R, begins R -> begins (concat (map sec_text ss) ++ R).
Proof.
  intros [|s ss] R B; [exact B|]. right. destruct (sec_text_cons s) as (t & E). cbn [map concat]. rewrite E. eexists. reflexivity.
Qed.
Lemma tables_read : forall ss R, Forall sec_ok ss -> begins R -> forall fuel D, length ss <= fuel ->
  tables_loop fuel D (concat (map sec_text ss) ++ R) = do D2 <- enter_all D ss; tables_loop (fuel - length ss) D2 R.
Proof.
  induction ss as [|s ss IH]; intros R F B fuel D L.
  - cbn. now rewrite Nat.sub_0_r.
  - apply Forall_cons_iff in F as [Fs F]. destruct fuel as [|fuel]; [cbn in L; lia|]. cbn [length] in L.
    cbn [map concat]. rewrite <- app_assoc. destruct s as [[ns item] l].
    pose proof (table_read ns item l (concat (map sec_text ss) ++ R) Fs (secs_begin ss R B)) as T.
    destruct (sec_text_cons (ns, item, l)) as (t & E). rewrite E in *. cbn [app] in *. cbn [tables_loop]. rewrite skip_plain by reflexivity. cbn [bind].
    rewrite T. cbn [bind enter_all]. destruct (enter_data D (key_of ns item) (TTab l)) as [D2|x]; cbn [bind]; [|reflexivity].
    rewrite IH; [reflexivity|exact F|exact B|lia].
Qed.
(** the last section *)
Definition last_text (s : sec) : str :=
  let '(ns, item, l) := s in
  match rev l with [] => head_text ns item | e :: r => head_text ns item ++ nl :: last_lines (rev r) e end.
Definition ends_with_int (l : list (str * tv)) : bool := match rev l with [] => false | e :: _ => is_int (snd e) end.
Lemma last_table_read : forall s fuel D, sec_ok s -> tables_loop (S fuel) D (last_text s) =
  if ends_with_int (snd s) then Err TypeError else enter_all D [s].
Proof.
  intros [[ns item] l] fuel D (F & N & A). unfold last_text, ends_with_int. cbn [snd]. destruct (head_text_cons ns item) as (t & Et).
  destruct (rev l) as [|e r] eqn:El.
  - assert (l = []) by (rewrite <- (rev_involutive l), El; reflexivity). subst l.
    pose proof (head_read ns item [] F N (or_introl eq_refl)) as H. rewrite app_nil_r in H. rewrite Et in *. cbn [tables_loop].
    rewrite skip_plain by reflexivity. cbn [bind]. unfold read_table. rewrite skip_plain by reflexivity. cbn [bind]. rewrite H. cbn [bind enter_all].
    destruct (enter_data D (key_of ns item) (TTab [])) as [D2|x]; cbn [bind]; [destruct fuel; reflexivity|reflexivity].
  - assert (El2 : l = rev r ++ [e]) by (rewrite <- (rev_involutive l), El; reflexivity). rewrite El2 in A.
    pose proof (head_read ns item (nl :: last_lines (rev r) e) F N) as H. specialize (H (or_intror (ex_intro _ _ eq_refl))).
    rewrite Et in *. cbn [app] in *. cbn [tables_loop]. rewrite skip_plain by reflexivity. cbn [bind]. unfold read_table. rewrite skip_plain by reflexivity.
    cbn [bind]. rewrite H. cbn [bind]. change (match_or_err [nl] (nl :: last_lines (rev r) e)) with (Ok (last_lines (rev r) e)). cbn [bind].
    rewrite last_read; [|exact A|lia]. destruct (is_int (snd e)); cbn [bind]; [reflexivity|]. cbn [enter_all]. rewrite <- El2.
    destruct (enter_data D (key_of ns item) (TTab l)) as [D2|x]; cbn [bind]; [destruct fuel; reflexivity|reflexivity].
Qed.
(** a document: the assignments of the root, then the sections *)
Definition doc_text (l : list (str * tv)) (ss : list sec) : str := assigns_text l ++ concat (map sec_text ss).
Definition last_assignments (l : list (str * tv)) (ss : list sec) : list (str * tv) := match rev ss with [] => l | s :: _ => snd s end.
Lemma rstrip_app : forall a b, forallb is_space b = true -> rstrip (a ++ b) = rstrip a.
Proof.
  intros a b H. unfold rstrip. rewrite rev_app_distr. f_equal. assert (R : forallb is_space (rev b) = true).
  { rewrite forallb_forall in *. intros x Hx. apply H. now apply in_rev. }
  induction (rev b) as [|c r IH]; [reflexivity|]. cbn [app span]. cbn in R. apply andb_true_iff in R as [R1 R2]. rewrite R1. specialize (IH R2).
  destruct (span is_space (r ++ rev a)) eqn:E. exact IH.
Qed.
Lemma rstrip_id : forall a c, is_space c = false -> rstrip (a ++ [c]) = a ++ [c].
Proof. intros a c H. unfold rstrip. rewrite rev_app_distr. cbn [rev app span]. rewrite H. cbn [snd rev]. now rewrite rev_involutive. Qed.
Lemma lines_last : forall l e, lines (l ++ [e]) = last_lines l e ++ [nl].
Proof. intros l e. unfold lines, last_lines. rewrite map_app, concat_app. cbn [map concat]. unfold line at 2. rewrite app_nil_r, app_assoc. reflexivity. Qed.
Lemma pair_ends : forall e, exists t c, pair_text e = t ++ [c] /\ is_space c = false.
Proof.
  intros e. unfold pair_text. destruct (body_ends (snd e)) as (_ & _ & _ & _ & t & c & -> & H).
  exists (key_part (fst e) ++ " "%char :: "="%char :: " "%char :: t), c. split; [|exact H]. rewrite <- app_assoc. reflexivity.
Qed.
Lemma head_ends : forall ns item, exists t, head_text ns item = t ++ lit "]".
Proof.
  intros ns [|]; unfold head_text.
  - exists (lit "[[" ++ join (lit ".") (map key_part ns) ++ lit "]"). rewrite <- !app_assoc. reflexivity.
  - exists (lit "[" ++ join (lit ".") (map key_part ns)). now rewrite <- app_assoc.
Qed.
Lemma rstrip_last : forall a s, rstrip (a ++ sec_text s) = a ++ last_text s.
Proof.
  intros a [[ns item] l]. unfold sec_text, last_text. destruct (rev l) as [|e r] eqn:El.
  - assert (l = []) by (rewrite <- (rev_involutive l), El; reflexivity). subst l. cbn [assigns_text].
    rewrite app_assoc, rstrip_app by reflexivity. destruct (head_ends ns item) as (t & ->). change (lit "]") with ["]"%char]. rewrite app_assoc. now apply rstrip_id.
  - assert (El2 : l = rev r ++ [e]) by (rewrite <- (rev_involutive l), El; reflexivity).
    assert (At : assigns_text l = last_lines (rev r) e ++ [nl; nl]).
    { unfold assigns_text. rewrite El2. destruct (rev r ++ [e]) eqn:Q; [now destruct (rev r)|]. rewrite <- Q, lines_last, <- app_assoc. reflexivity. }
    rewrite At. replace (a ++ head_text ns item ++ nl :: last_lines (rev r) e ++ [nl; nl]) with ((a ++ head_text ns item ++ nl :: last_lines (rev r) e) ++ [nl; nl])
      by (rewrite <- !app_assoc; reflexivity).
    rewrite rstrip_app by reflexivity. unfold last_lines. destruct (pair_ends e) as (t & c & -> & H).
    replace (a ++ head_text ns item ++ nl :: lines (rev r) ++ t ++ [c]) with ((a ++ head_text ns item ++ nl :: lines (rev r) ++ t) ++ [c])
      by (rewrite <- !app_assoc; cbn [app]; rewrite <- !app_assoc; reflexivity).
    now apply rstrip_id.
Qed.
Lemma rstrip_root : forall l, rstrip (assigns_text l) = match rev l with [] => [] | e :: r => last_lines (rev r) e end.
Proof.
  intros l. destruct (rev l) as [|e r] eqn:El.
  - assert (l = []) by (rewrite <- (rev_involutive l), El; reflexivity). now subst l.
  - assert (El2 : l = rev r ++ [e]) by (rewrite <- (rev_involutive l), El; reflexivity).
    assert (At : assigns_text l = last_lines (rev r) e ++ [nl; nl]).
    { unfold assigns_text. rewrite El2. destruct (rev r ++ [e]) eqn:Q; [now destruct (rev r)|]. rewrite <- Q, lines_last, <- app_assoc. reflexivity. }
    rewrite At, rstrip_app by reflexivity. unfold last_lines. destruct (pair_ends e) as (t & c & -> & H). rewrite app_assoc. now apply rstrip_id.
Qed.
Lemma assigns_first : forall l, l <> [] -> exists c t, lines l = c :: t /\ plain c = true.
Proof.
  intros [|e l] H; [congruence|]. unfold lines. cbn [map concat]. unfold line, pair_text. destruct (key_part_cons (fst e)) as (c & t & -> & P & _).
  eexists; eexists; split; [reflexivity|exact P].
Qed.
Lemma last_lines_first : forall l e, exists c t, last_lines l e = c :: t /\ plain c = true.
Proof.
  intros [|x l] e; unfold last_lines.
  - unfold lines, pair_text. cbn. destruct (key_part_cons (fst e)) as (c & t & -> & P & _). eexists; eexists; split; [reflexivity|exact P].
  - destruct (assigns_first (x :: l)) as (c & t & -> & P); [discriminate|]. eexists; eexists; split; [reflexivity|exact P].
Qed.
Theorem doc_read : forall l ss D, assigns_ok l -> Forall sec_ok ss -> enter_all (TTab l) ss = Ok D ->
  loads (rstrip (doc_text l ss)) = if ends_with_int (last_assignments l ss) then Err TypeError else Ok D.
Proof.
  intros l ss D A F HD. unfold doc_text, last_assignments, loads. destruct (rev ss) as [|s rs] eqn:Es.
  - assert (ss = []) by (rewrite <- (rev_involutive ss), Es; reflexivity). subst ss. cbn [map concat]. rewrite app_nil_r, rstrip_root.
    unfold ends_with_int. destruct (rev l) as [|e r] eqn:El.
    + assert (l = []) by (rewrite <- (rev_involutive l), El; reflexivity). subst l. cbn in HD. injection HD as <-. reflexivity.
    + assert (El2 : l = rev r ++ [e]) by (rewrite <- (rev_involutive l), El; reflexivity).
      assert (S1 : skip true (last_lines (rev r) e) = Ok (last_lines (rev r) e)).
      { destruct (last_lines_first (rev r) e) as (c & t & -> & P). now apply skip_plain. }
      rewrite S1. cbn [bind]. rewrite last_read; [|now rewrite <- El2|lia]. destruct (is_int (snd e)); cbn [bind]; [reflexivity|]. rewrite <- El2. cbn in HD. now injection HD as <-.
  - assert (Es2 : ss = rev rs ++ [s]) by (rewrite <- (rev_involutive ss), Es; reflexivity).
    rewrite Es2, map_app, concat_app. cbn [map concat]. rewrite app_nil_r, app_assoc, rstrip_last.
    assert (Fs : Forall sec_ok (rev rs) /\ sec_ok s) by (rewrite Es2 in F; apply Forall_app in F as [F1 F2]; split; [exact F1|now inversion F2]).
    destruct Fs as [Frs Fs].
    assert (Bl : begins (last_text s)).
    { right. destruct s as [[ns item] l']. unfold last_text. destruct (head_text_cons ns item) as (t & ->). destruct (rev l'); eexists; reflexivity. }
    pose proof (secs_begin (rev rs) _ Bl) as B2. rewrite <- app_assoc.
    set (R := concat (map sec_text (rev rs)) ++ last_text s) in *.
    assert (S1 : skip true (assigns_text l ++ R) = Ok (assigns_text l ++ R)).
    { destruct l as [|e l].
      - cbn [assigns_text app]. destruct B2 as [E|(r & ->)]; [now rewrite E|now apply skip_plain].
      - unfold assigns_text. destruct (assigns_first (e :: l)) as (c & t & -> & P); [discriminate|]. now apply skip_plain. }
    rewrite S1. cbn [bind]. rewrite assigns_read; [|exact A|exact B2|rewrite app_length; lia]. cbn [bind]. unfold R.
    assert (Lr : length (rev rs) <= length (concat (map sec_text (rev rs)))).
    { generalize (rev rs). intros x. induction x as [|y x IH]; [cbn; lia|]. cbn [map concat length]. rewrite app_length. destruct (sec_text_cons y) as (t & ->). cbn [length]. lia. }
    rewrite tables_read; [|exact Frs|exact Bl|rewrite app_length; lia]. rewrite app_length.
    replace (S (length (concat (map sec_text (rev rs))) + length (last_text s)) - length (rev rs)) with (S (length (concat (map sec_text (rev rs))) + length (last_text s) - length (rev rs))) by lia.
    rewrite Es2, enter_all_app in HD. destruct (enter_all (TTab l) (rev rs)) as [D2|x]; [|discriminate]. cbn [bind] in *.
    rewrite last_table_read by exact Fs. now rewrite HD.
Qed.

(** * The sections that the writer writes *)
Definition keeps (h : header) (dep : nat) (v : tv) : bool := match h with HNone => false | _ => is_inline dep v end.
Definition mode (h : header) (dep : nat) (v : tv) : option header :=
  match display_of dep v with
  | Inline => match h with HNone => Some HTable | _ => None end
  | Regular => Some HTable
  | Hidden => Some HNone
  | TableArray => Some HItem
  end.
Lemma keeps_mode : forall h dep v, keeps h dep v = is_none (mode h dep v).
Proof. intros h dep v. unfold keeps, mode, is_inline. destruct h, (display_of dep v); reflexivity. Qed.
Definition kept (h : header) (dep : nat) (t : list (str * tv)) : list (str * tv) := filter (fun e => keeps h dep (snd e)) t.
Definition below (k : str) (s : sec) : sec := let '(ns, item, l) := s in (k :: ns, item, l).
Fixpoint rsecs (h : header) (dep : nat) (v : tv) : list sec :=
  match v with
  | TTab t =>
      match h with HNone => [] | HTable => [([], false, kept h (S dep) t)] | HItem => [([], true, kept h (S dep) t)] end
      ++ concat (map (fun e => map (below (fst e)) match mode h (S dep) (snd e) with None => [] | Some m => rsecs m (S dep) (snd e) end) t)
  | TList l => concat (map (fun x => rsecs HItem (S dep) x) l)
  | _ => []
  end.
Definition item_secs (h : header) (dep : nat) (e : str * tv) : list sec :=
  map (below (fst e)) match mode h dep (snd e) with None => [] | Some m => rsecs m dep (snd e) end.
Definition items (h : header) (dep : nat) (t : list (str * tv)) : list sec := concat (map (item_secs h dep) t).
Definition prefix (p : list str) (s : sec) : sec := let '(ns, item, l) := s in (p ++ ns, item, l).
Lemma names_app : forall a b, names (a ++ b) = names a ++ names b.
Proof. intros a b. unfold names. now rewrite map_app, concat_app. Qed.
Lemma prefix_below : forall p k X, map (prefix (p ++ [k])) X = map (prefix p) (map (below k) X).
Proof. intros p k X. rewrite map_map. apply map_ext. intros [[ns item] l]. cbn. now rewrite <- app_assoc. Qed.
Lemma prefix_nil : forall X, map (prefix []) X = X.
Proof. induction X as [|[[ns item] l] X IH]; [reflexivity|]. cbn. now rewrite IH. Qed.
Lemma assignments_text : forall dep t, assignments dep t = assigns_text (filter (fun e => is_inline dep (snd e)) t).
Proof.
  intros dep t. unfold assignments, assigns_text. destruct (filter _ t) as [|e l]; [reflexivity|]. f_equal. unfold lines. f_equal. apply map_ext.
  intros [k v]. unfold assignment, line, pair_text. cbn [fst snd]. rewrite inline_body, <- !app_assoc. reflexivity.
Qed.
Definition texts (p : list str) (X : list sec) : str := concat (map sec_text (map (prefix p) X)).
Lemma texts_app : forall p X Y, texts p (X ++ Y) = texts p X ++ texts p Y.
Proof. intros p X Y. unfold texts. now rewrite !map_app, concat_app. Qed.
Lemma texts_concat : forall p A (f : A -> list sec) l, texts p (concat (map f l)) = concat (map (fun x => texts p (f x)) l).
Proof. intros p A f l. induction l as [|x l IH]; [reflexivity|]. cbn [map concat]. now rewrite texts_app, IH. Qed.
Lemma concat_ext_in : forall A B (f g : A -> list B) l, Forall (fun x => f x = g x) l -> concat (map f l) = concat (map g l).
Proof. intros A B f g l F. induction F as [|x l E F IH]; [reflexivity|]. cbn. now rewrite E, IH. Qed.
Definition wdoc_items (h : header) (key : list kpart) (t : list (str * tv)) : str :=
  concat (map (fun e =>
           let item_key := key ++ [KName (fst e)] in
           match display_of (length item_key) (snd e) with
           | Inline => match h with HNone => wdoc HTable item_key (snd e) | _ => [] end
           | Regular => wdoc HTable item_key (snd e)
           | Hidden => wdoc HNone item_key (snd e)
           | TableArray => wdoc HItem item_key (snd e)
           end) t).
Lemma items_text : forall h key t, Forall (fun e => forall m key, key <> [] -> wdoc m key (snd e) = texts (names key) (rsecs m (length key) (snd e))) t ->
  wdoc_items h key t = texts (names key) (items h (S (length key)) t).
Proof.
  intros h key t F. unfold wdoc_items, items. rewrite texts_concat. apply concat_ext_in. eapply Forall_impl; [|exact F]. intros [k v] IH. cbn [fst snd] in *.
  cbv zeta. unfold item_secs, mode. cbn [fst snd]. assert (NE : key ++ [KName k] <> []) by (destruct key; discriminate).
  assert (Ln : length (key ++ [KName k]) = S (length key)) by (rewrite app_length; cbn; lia).
  assert (N : names (key ++ [KName k]) = names key ++ [k]) by (rewrite names_app; reflexivity).
  assert (G : forall m, wdoc m (key ++ [KName k]) v = texts (names key) (map (below k) (rsecs m (S (length key)) v))).
  { intros m. rewrite IH by exact NE. rewrite Ln, N. unfold texts. now rewrite prefix_below. }
  rewrite Ln. destruct (display_of (S (length key)) v); [destruct h; [reflexivity|reflexivity|apply G]|apply G|apply G|apply G].
Qed.
Lemma wdoc_secs : forall v h key, key <> [] -> wdoc h key v = texts (names key) (rsecs h (length key) v).
Proof.
  induction v as [s|z|b|l IH|t IH] using tv_ind'; intros h key NE; try reflexivity.
  - cbn [wdoc rsecs]. rewrite texts_concat. apply concat_ext_in. eapply Forall_impl; [|exact IH]. intros x Hx. cbn beta.
    rewrite Hx by (destruct key; discriminate). rewrite names_app, app_length. cbn [names map concat length]. now rewrite app_nil_r, Nat.add_1_r.
  - change (wdoc h key (TTab t)) with (header_text h key ++ match h with HNone => [] | _ => assignments (S (length key)) t end ++ wdoc_items h key t).
    rewrite items_text by exact IH.
    change (rsecs h (length key) (TTab t)) with (match h with HNone => [] | HTable => [([], false, kept h (S (length key)) t)] | HItem => [([], true, kept h (S (length key)) t)] end ++ items h (S (length key)) t).
    rewrite texts_app, app_assoc. f_equal. rewrite assignments_text. destruct key as [|k key]; [congruence|].
    unfold texts, header_text, dotted, head_text. destruct h; cbn [map concat prefix sec_text head_text];
      unfold head_text; rewrite ?app_nil_r; rewrite <- ?app_assoc; reflexivity.
Qed.
Lemma dumps_text : forall d, dumps d = rstrip (doc_text (filter (fun e => is_inline 1 (snd e)) d) (items HTable 1 d)).
Proof.
  intros d. unfold dumps, doc_text. f_equal.
  change (wdoc HTable [] (TTab d)) with (assignments 1 d ++ wdoc_items HTable [] d). rewrite assignments_text. f_equal.
  rewrite items_text; [|apply Forall_forall; intros e _ m key NE; now apply wdoc_secs]. unfold texts. now rewrite prefix_nil.
Qed.

(** * Entering *)
Lemma rev_last : forall A (l : list A) x, rev (l ++ [x]) = x :: rev l.
Proof. intros A l x. now rewrite rev_app_distr. Qed.
Lemma enter_fuel : forall f1 f2 data key v, length key + depth data < f1 -> length key + depth data < f2 -> enter f1 data key v = enter f2 data key v.
Proof.
  induction f1 as [|f1 IH]; intros f2 data key v H1 H2; [lia|]. destruct f2 as [|f2]; [lia|]. cbn [enter].
  destruct key as [|k rest]; [reflexivity|]. cbn [length] in *. destruct data as [s|z|b|l|t]; try reflexivity.
  - assert (G : match rev l with [] => Err IndexError | x :: before => do x <- enter f1 x (k :: rest) v; Ok (TList (rev before ++ [x])) end
      = match rev l with [] => Err IndexError | x :: before => do x <- enter f2 x (k :: rest) v; Ok (TList (rev before ++ [x])) end).
    { destruct (rev l) as [|x before] eqn:E; [reflexivity|]. assert (In x l) by (rewrite in_rev, E; now left).
      pose proof (depth_list l x H). rewrite (IH f2); [reflexivity|cbn [length]; lia|cbn [length]; lia]. }
    destruct k, rest; try exact G; reflexivity.
  - destruct k as [n|]; [|reflexivity]. destruct rest as [|k2 rest]; [reflexivity|]. cbv zeta. rewrite (IH f2); [reflexivity| |];
      (destruct (dict_get n t) as [w|] eqn:G; [apply dict_get_in in G; pose proof (depth_tab t (n, w) G); cbn [snd length] in *; lia|
       assert (1 <= depth (TTab t)) by (cbn [depth]; lia); destruct k2; cbn [depth length fold_right] in *; lia]).
Qed.
Lemma enter_table : forall t n k2 rest v, enter_data (TTab t) (KName n :: k2 :: rest) v =
  do sub <- enter_data (match dict_get n t with Some w => w | None => match k2 with KItem => TList [] | KName _ => TTab [] end end) (k2 :: rest) v;
  Ok (TTab (dict_set n sub t)).
Proof.
  intros t n k2 rest v. unfold enter_data at 1. cbn [enter]. cbv zeta. unfold enter_data. f_equal. apply enter_fuel; cbn [length]; [|lia].
  destruct (dict_get n t) as [w|] eqn:G; [apply dict_get_in in G; pose proof (depth_tab t (n, w) G); cbn [snd length] in *; lia|
       assert (1 <= depth (TTab t)) by (cbn [depth]; lia); destruct k2; cbn [depth length fold_right] in *; lia].
Qed.
Lemma enter_last : forall l x n rest v, enter_data (TList (l ++ [x])) (KName n :: rest) v = do x <- enter_data x (KName n :: rest) v; Ok (TList (l ++ [x])).
Proof.
  intros l x n rest v. unfold enter_data at 1. cbn [enter]. rewrite rev_last, rev_involutive. unfold enter_data. f_equal. apply enter_fuel; cbn [length]; [|lia].
  pose proof (depth_list (l ++ [x]) x). assert (In x (l ++ [x])) by (apply in_app_iff; right; now left). intuition lia.
Qed.
Lemma enter_item : forall l v, enter_data (TList l) [KItem] v = Ok (TList (l ++ [v])).
Proof. reflexivity. Qed.

Lemma set_same : forall V n (w : V) t, dict_get n t = Some w -> dict_set n w t = t.
Proof.
  intros V n w. induction t as [|[k x] t IH]; [discriminate|]. cbn. destruct (str_eqb n k); [now intros [= ->]|]. intros H. now rewrite IH.
Qed.
Lemma set_twice : forall V n (a b : V) t, dict_set n b (dict_set n a t) = dict_set n b t.
Proof.
  intros V n a b. induction t as [|[k x] t IH]; cbn; [now rewrite str_eqb_refl|]. destruct (str_eqb n k) eqn:E; cbn; rewrite E; [reflexivity|]. now rewrite IH.
Qed.
Lemma set_at_end : forall V n (x w : V) t, ~ In n (map fst t) -> dict_set n w (t ++ [(n, x)]) = t ++ [(n, w)].
Proof.
  intros V n x w t N. induction t as [|[k y] t IH]; cbn; [now rewrite str_eqb_refl|].
  cbn in N. destruct (str_eqb n k) eqn:E; [apply str_eqb_eq in E; subst; tauto|]. rewrite IH by tauto. reflexivity.
Qed.
Definition has_key (s : sec) : Prop := let '(ns, item, l) := s in ns <> [] \/ item = true.
Definition named (s : sec) : Prop := let '(ns, item, l) := s in ns <> [].
Lemma enter_below : forall t n s, has_key s -> let '(ns, item, l) := s in
  enter_data (TTab t) (key_of (n :: ns) item) (TTab l) =
  do sub <- enter_data (match dict_get n t with Some w => w | None => match ns with [] => TList [] | _ => TTab [] end end) (key_of ns item) (TTab l); Ok (TTab (dict_set n sub t)).
Proof.
  intros t n [[ns item] l] H. unfold key_of. cbn [map app]. destruct ns as [|k ns].
  - destruct H as [H|H]; [congruence|]. subst item. cbn [map app]. apply enter_table.
  - cbn [map app]. apply enter_table.
Qed.
Lemma all_below : forall n ss t w, Forall has_key ss -> dict_get n t = Some w ->
  enter_all (TTab t) (map (below n) ss) = do w2 <- enter_all w ss; Ok (TTab (dict_set n w2 t)).
Proof.
  intros n. induction ss as [|[[ns item] l] ss IH]; intros t w F G; [cbn; now rewrite set_same|].
  apply Forall_cons_iff in F as [Fs F]. cbn [map below enter_all]. pose proof (enter_below t n (ns, item, l) Fs) as E. cbn beta iota in E. rewrite E, G. clear E.
  destruct (enter_data w (key_of ns item) (TTab l)) as [w1|x]; cbn [bind]; [|reflexivity].
  rewrite (IH (dict_set n w1 t) w1 F (dict_get_set_same _ n w1 t)). destruct (enter_all w1 ss) as [w2|x]; cbn [bind]; [|reflexivity]. now rewrite set_twice.
Qed.
Lemma all_below_new : forall n s ss t w, Forall has_key (s :: ss) -> dict_get n t = None -> w = (let '(ns, _, _) := s in match ns with [] => TList [] | _ => TTab [] end) ->
  enter_all (TTab t) (map (below n) (s :: ss)) = do w2 <- enter_all w (s :: ss); Ok (TTab (dict_set n w2 t)).
Proof.
  intros n [[ns item] l] ss t w F G ->. apply Forall_cons_iff in F as [Fs F]. cbn [map below enter_all]. pose proof (enter_below t n (ns, item, l) Fs) as E. cbn beta iota in E.
  rewrite E, G. clear E. destruct (enter_data _ (key_of ns item) (TTab l)) as [w1|x]; cbn [bind]; [|reflexivity].
  rewrite (all_below n ss (dict_set n w1 t) w1 F (dict_get_set_same _ n w1 t)). destruct (enter_all w1 ss) as [w2|x]; cbn [bind]; [|reflexivity]. now rewrite set_twice.
Qed.
Lemma all_last : forall ss l x, Forall named ss -> enter_all (TList (l ++ [x])) ss = do x2 <- enter_all x ss; Ok (TList (l ++ [x2])).
Proof.
  induction ss as [|[[ns item] a] ss IH]; intros l x F; [reflexivity|]. apply Forall_cons_iff in F as [Fs F]. cbn [enter_all].
  destruct ns as [|n ns]; [now destruct Fs|]. unfold key_of. cbn [map app]. rewrite enter_last.
  destruct (enter_data x _ (TTab a)) as [x1|]; cbn [bind]; [|reflexivity]. now apply IH.
Qed.
Lemma below_named : forall n X, Forall named (map (below n) X).
Proof. intros n X. apply Forall_forall. intros s Hs. apply in_map_iff in Hs as ([[ns item] l] & <- & _). cbn. discriminate. Qed.
Lemma items_named : forall h dep t, Forall named (items h dep t).
Proof.
  intros h dep t. unfold items. induction t as [|e t IH]; [constructor|]. cbn [map concat]. apply Forall_app. split; [apply below_named|exact IH].
Qed.
Lemma named_key : forall X, Forall named X -> Forall has_key X.
Proof. intros X. apply Forall_impl. intros [[ns item] l]. cbn. auto. Qed.

(** what is read: the assignments come first *)
Fixpoint norm (h : header) (dep : nat) (v : tv) : tv :=
  match v with
  | TTab t => TTab (kept h (S dep) t ++ concat (map (fun e => match mode h (S dep) (snd e) with None => [] | Some m => [(fst e, norm m (S dep) (snd e))] end) t))
  | TList l => TList (map (fun x => norm HItem (S dep) x) l)
  | _ => v
  end.
Definition norm_item (h : header) (dep : nat) (e : str * tv) : list (str * tv) :=
  match mode h dep (snd e) with None => [] | Some m => [(fst e, norm m dep (snd e))] end.
Definition norm_items (h : header) (dep : nat) (t : list (str * tv)) : list (str * tv) := concat (map (norm_item h dep) t).
Definition hideable (t : list (str * tv)) : Prop := Forall (fun e => no_assignment (snd e) = true) t.
(** how a value may be written below a key *)
Definition shape (h : header) (v : tv) : Prop :=
  match h, v with
  | HTable, TTab _ => True
  | HNone, TTab t => hideable t
  | HItem, TList l => l <> [] /\ Forall (fun x => is_tab x = true) l
  | _, _ => False
  end.
Lemma mode_shape : forall h dep t e m, (h = HNone -> hideable t) -> In e t -> mode h (S dep) (snd e) = Some m -> shape m (snd e).
Proof.
  intros h dep t [k v] m Hh He. cbn [snd]. unfold mode, display_of. destruct v as [s|z|b|l|t2].
  1-3: destruct h; try discriminate; specialize (Hh eq_refl); unfold hideable in Hh; rewrite Forall_forall in Hh; specialize (Hh _ He); discriminate.
  - unfold list_display. destruct l as [|x l].
    + destruct h; try discriminate. specialize (Hh eq_refl). unfold hideable in Hh; rewrite Forall_forall in Hh; specialize (Hh _ He). discriminate.
    + destruct (forallb is_tab (x :: l)) eqn:E.
      * intros [= <-]. split; [discriminate|]. apply Forall_forall. now apply forallb_forall.
      * destruct h; try discriminate. specialize (Hh eq_refl). unfold hideable in Hh; rewrite Forall_forall in Hh; specialize (Hh _ He). cbn [snd no_assignment list_display] in Hh. rewrite E in Hh. discriminate.
  - cbn [Nat.eqb]. destruct (forallb _ t2) eqn:E.
    + intros [= <-]. unfold shape, hideable. apply Forall_forall. now apply forallb_forall.
    + destruct (_ || _ || _); [intros [= <-]; exact Logic.I|]. destruct h; try discriminate. intros [= <-]; exact Logic.I.
Qed.
Lemma rsecs_tab : forall h dep t, rsecs h dep (TTab t) =
  match h with HNone => [] | HTable => [([], false, kept h (S dep) t)] | HItem => [([], true, kept h (S dep) t)] end ++ items h (S dep) t.
Proof. reflexivity. Qed.
Lemma norm_tab : forall h dep t, norm h dep (TTab t) = TTab (kept h (S dep) t ++ norm_items h (S dep) t).
Proof. reflexivity. Qed.
Lemma rsecs_nonempty : forall v m dep, inline_ok v -> shape m v -> rsecs m dep v <> [].
Proof.
  induction v as [s|z|b|l IH|t IH] using tv_ind'; intros m dep OK S; try (destruct m; contradiction).
  - destruct m; try contradiction. destruct S as [NE F]. destruct l as [|x l]; [congruence|]. cbn [rsecs map concat].
    inversion F as [|? ? Fx _]; subst. destruct x; discriminate.
  - rewrite rsecs_tab. destruct m; try discriminate. cbn [app]. inversion OK as [| | | |t' Ne ND Ft]; subst. destruct t as [|e t]; [congruence|].
    unfold items. cbn [map concat]. unfold item_secs at 1. cbn [shape] in S. assert (Se := S). inversion S as [|? ? Sx _]; subst. inversion IH as [|? ? IHe _]; subst. inversion Ft as [|? ? Fe _]; subst.
    destruct (mode HNone (Datatypes.S dep) (snd e)) as [m|] eqn:M.
    + pose proof (mode_shape HNone dep (e :: t) e m (fun _ => Se) (or_introl eq_refl) M) as Sh.
      specialize (IHe m (Datatypes.S dep) (proj2 Fe) Sh). destruct (rsecs m (Datatypes.S dep) (snd e)); [congruence|]. discriminate.
    + unfold mode in M. destruct (display_of _ _); discriminate.
Qed.
Lemma rsecs_keys : forall v m dep, shape m v -> m <> HTable -> Forall has_key (rsecs m dep v).
Proof.
  intros v m dep S N. destruct m; [congruence| |].
  - destruct v as [| | |l|]; try contradiction. destruct S as [_ F]. cbn [rsecs]. clear N. induction F as [|x l Fx F IH]; [constructor|].
    cbn [map concat]. apply Forall_app. split; [|exact IH]. destruct x; try discriminate. rewrite rsecs_tab. apply Forall_app. split; [repeat constructor; now right|].
    apply named_key, items_named.
  - destruct v as [| | | |t]; try contradiction. rewrite rsecs_tab. cbn [app]. apply named_key, items_named.
Qed.
Lemma kept_none : forall dep t, kept HNone dep t = [].
Proof. intros dep t. unfold kept. induction t; [reflexivity|exact IHt]. Qed.

Definition fills (v : tv) : Prop := forall t h dep, v = TTab t -> (h = HNone -> hideable t) ->
  enter_all (TTab (kept h (S dep) t)) (items h (S dep) t) = Ok (norm h dep v).
Definition places (v : tv) : Prop := forall m dep n t, shape m v -> ~ In n (map fst t) ->
  enter_all (TTab t) (map (below n) (rsecs m dep v)) = Ok (TTab (t ++ [(n, norm m dep v)])).
Lemma list_places : forall l dep, Forall (fun x => is_tab x = true) l -> Forall fills l -> forall l0,
  enter_all (TList l0) (concat (map (fun x => rsecs HItem dep x) l)) = Ok (TList (l0 ++ map (fun x => norm HItem dep x) l)).
Proof.
  intros l dep T F. induction F as [|x l Fx F IH]; intros l0; [cbn; now rewrite app_nil_r|]. inversion T as [|? ? Tx T']; subst. specialize (IH T').
  destruct x as [| | | |t]; try discriminate. cbn [map concat]. rewrite rsecs_tab, <- app_assoc. cbn [app enter_all]. change (key_of [] true) with [KItem].
  rewrite enter_item. cbn [bind]. rewrite enter_all_app, all_last by apply items_named. rewrite (Fx t HItem dep eq_refl) by discriminate. cbn [bind].
  rewrite IH. now rewrite <- app_assoc.
Qed.
Lemma items_place : forall h dep t, (h = HNone -> hideable t) -> NoDup (map fst t) -> Forall (fun e => places (snd e)) t ->
  enter_all (TTab (kept h (S dep) t)) (items h (S dep) t) = Ok (TTab (kept h (S dep) t ++ norm_items h (S dep) t)).
Proof.
  intros h dep t Hh ND F.
  assert (G : forall todo base, (forall e, In e todo -> In e t) -> Forall (fun e => places (snd e)) todo ->
     NoDup (map fst todo) -> (forall e, In e todo -> mode h (S dep) (snd e) <> None -> ~ In (fst e) (map fst base)) ->
     enter_all (TTab base) (items h (S dep) todo) = Ok (TTab (base ++ norm_items h (S dep) todo))).
  { induction todo as [|e todo IH]; intros base Sub P N Fr; [cbn; now rewrite app_nil_r|].
    unfold items, norm_items. cbn [map concat]. fold (items h (S dep) todo). fold (norm_items h (S dep) todo).
    inversion P as [|? ? Pe P']; subst. inversion N as [|? ? Ne N']; subst. rewrite enter_all_app. unfold item_secs, norm_item.
    destruct (mode h (S dep) (snd e)) as [m|] eqn:M.
    - rewrite Pe; [|exact (mode_shape h dep t e m Hh (Sub e (or_introl eq_refl)) M)|apply Fr; [now left|congruence]]. cbn [bind].
      rewrite IH; [now rewrite <- app_assoc| |exact P'|exact N'|].
      + intros x Hx. apply Sub. now right.
      + intros x Hx Mx Hi. rewrite map_app in Hi. apply in_app_iff in Hi as [Hi|[Hi|[]]]; [exact (Fr x (or_intror Hx) Mx Hi)|].
        apply Ne. cbn [fst] in Hi. rewrite Hi. now apply in_map.
    - cbn [map enter_all bind app]. apply IH; auto; intros x Hx; [apply Sub|apply Fr]; now right. }
  apply G; auto. intros e He M Hi. apply in_map_iff in Hi as (x & Ex & Hx). unfold kept in Hx. apply filter_In in Hx as [Hx Kx].
  assert (x = e).
  { destruct x as [k1 v1], e as [k2 v2]. cbn [fst] in Ex. subst k2. pose proof (ProjectProofs.nodup_get _ t k1 v1 ND Hx). pose proof (ProjectProofs.nodup_get _ t k1 v2 ND He). congruence. }
  subst x. rewrite keeps_mode in Kx. destruct (mode h (S dep) (snd e)); [discriminate|congruence].
Qed.
Lemma all_places : forall v, inline_ok v -> fills v /\ places v.
Proof.
  induction v as [s|z|b|l IH|t IH] using tv_ind'; intros OK; try (split; [discriminate|intros m dep n t S; destruct m; contradiction]).
  - split; [discriminate|]. intros m dep n t Sh N. destruct m; try contradiction. assert (Sh' := Sh). destruct Sh as [NE F].
    inversion OK as [| | |l' Fl|]; subst.
    assert (Ff : Forall fills l) by (rewrite Forall_forall in *; intros x Hx; apply (IH x Hx (Fl x Hx))).
    pose proof (list_places l (S dep) F Ff []) as LP. pose proof (rsecs_keys (TList l) HItem dep Sh') as K.
    change (concat (map (fun x => rsecs HItem (S dep) x) l)) with (rsecs HItem dep (TList l)) in LP. 
    assert (Hd : exists a r, rsecs HItem dep (TList l) = ([], true, a) :: r).
    { destruct l as [|x l]; [congruence|]. inversion F as [|? ? Fx _]; subst. destruct x; try discriminate. cbn [rsecs map concat]. eexists; eexists; reflexivity. }
    destruct Hd as (a & r & Hd). rewrite Hd in *. rewrite (all_below_new n _ r t (TList [])); [|apply K; discriminate|now apply dict_get_none|reflexivity].
    match goal with |- bind ?x _ = _ => replace x with (Ok (norm HItem dep (TList l))) by (symmetry; exact LP) end. cbn [bind]. now rewrite set_fresh.
  - inversion OK as [| | | |t' Ne ND Ft]; subst.
    assert (Fl : fills (TTab t)).
    { intros t2 h dep E Hh. injection E as <-. rewrite norm_tab. apply items_place; auto. rewrite Forall_forall in *. intros e He. apply (IH e He (proj2 (Ft e He))). }
    split; [exact Fl|]. intros m dep n t0 Sh N. destruct m; try contradiction.
    + rewrite rsecs_tab. cbn [app map below enter_all]. change (key_of [n] false) with [KName n]. rewrite enter_one. cbn [bind]. rewrite set_fresh by exact N.
      rewrite (all_below n _ _ (TTab (kept HTable (S dep) t))).
      * rewrite (Fl t HTable dep eq_refl) by discriminate. cbn [bind]. now rewrite set_at_end.
      * apply named_key, items_named.
      * rewrite <- (set_fresh _ n _ t0 N). apply dict_get_set_same.
    + pose proof (rsecs_nonempty (TTab t) HNone dep OK Sh) as RN. pose proof (rsecs_keys (TTab t) HNone dep Sh) as K. pose proof (Fl t HNone dep eq_refl (fun _ => Sh)) as FH.
      rewrite kept_none in FH. rewrite rsecs_tab in *. cbn [app] in *. pose proof (items_named HNone (S dep) t) as IN.
      destruct (items HNone (S dep) t) as [|[[ns item] a] r]; [congruence|].
      rewrite (all_below_new n _ r t0 (TTab [])); [|apply K; discriminate|now apply dict_get_none|].
      * rewrite FH. cbn [bind]. now rewrite set_fresh.
      * inversion IN as [|? ? Ns _]; subst. destruct ns; [now destruct Ns|reflexivity].
Qed.

(** * The sections can be read *)
Definition part_ok (s : sec) : Prop := let '(ns, item, l) := s in Forall str_ok ns /\ assigns_ok l.
Lemma kept_ok : forall h dep t, Forall val_ok t -> NoDup (map fst t) -> assigns_ok (kept h dep t).
Proof.
  intros h dep t F ND. unfold assigns_ok, kept. split.
  - rewrite Forall_forall in *. intros x Hx. apply filter_In in Hx as [Hx _]. auto.
  - clear F. induction t as [|e t IH]; [constructor|]. inversion ND as [|? ? N ND']; subst. cbn [filter]. destruct (keeps h dep (snd e)); [|auto].
    cbn [map]. constructor; [|auto]. intros X. apply N. apply in_map_iff in X as (y & <- & Hy). apply filter_In in Hy as [Hy _]. now apply in_map.
Qed.
Lemma below_ok : forall k X, str_ok k -> Forall part_ok X -> Forall part_ok (map (below k) X).
Proof.
  intros k X K F. rewrite Forall_forall in *. intros s Hs. apply in_map_iff in Hs as ([[ns item] l] & <- & Hs). specialize (F _ Hs). cbn in *.
  destruct F as [F1 F2]. split; [now constructor|exact F2].
Qed.
Lemma concat_Forall : forall A B (P : B -> Prop) (f : A -> list B) l, (forall x, In x l -> Forall P (f x)) -> Forall P (concat (map f l)).
Proof. intros A B P f l. induction l as [|x l IH]; intros H; [constructor|]. cbn. apply Forall_app. split; [apply H; now left|apply IH; intros; apply H; now right]. Qed.
Lemma rsecs_ok : forall v m dep, inline_ok v -> Forall part_ok (rsecs m dep v).
Proof.
  induction v as [s|z|b|l IH|t IH] using tv_ind'; intros m dep OK; try constructor.
  - cbn [rsecs]. inversion OK as [| | |l' Fl|]; subst. apply concat_Forall. intros x Hx. rewrite Forall_forall in IH, Fl. apply IH; auto.
  - inversion OK as [| | | |t' Ne ND Ft]; subst. rewrite rsecs_tab. apply Forall_app. split.
    + pose proof (kept_ok m (S dep) t Ft ND) as K. destruct m; repeat constructor; cbn; try apply K.
    + apply concat_Forall. intros e He. unfold item_secs. rewrite Forall_forall in IH, Ft. destruct (Ft e He) as [K I]. apply below_ok; [exact K|].
      destruct (mode m (S dep) (snd e)); [now apply IH|constructor].
Qed.
Lemma items_ok : forall h dep t, Forall val_ok t -> Forall sec_ok (items h dep t).
Proof.
  intros h dep t F. assert (P : Forall part_ok (items h dep t)).
  { apply concat_Forall. intros e He. rewrite Forall_forall in F. destruct (F e He) as [K I]. unfold item_secs. apply below_ok; [exact K|].
    destruct (mode h dep (snd e)); [now apply rsecs_ok|constructor]. }
  pose proof (items_named h dep t) as N. rewrite Forall_forall in *. intros [[ns item] l] Hs. specialize (P _ Hs). specialize (N _ Hs). cbn in *. tauto.
Qed.

(** * What is read is the data that was written *)
(** equality of python data: the order of the keys of a table does not matter *)
Inductive same : tv -> tv -> Prop :=
| same_str : forall s, same (TStr s) (TStr s)
| same_int : forall z, same (TInt z) (TInt z)
| same_bool : forall b, same (TBool b) (TBool b)
| same_list : forall l m, Forall2 same l m -> same (TList l) (TList m)
| same_tab : forall t u, length t = length u -> NoDup (map fst t) -> NoDup (map fst u) ->
    Forall (fun e => exists y, dict_get (fst e) u = Some y /\ same (snd e) y) t -> same (TTab t) (TTab u).
Lemma same_refl : forall v, inline_ok v -> same v v.
Proof.
  induction v as [s|z|b|l IH|t IH] using tv_ind'; intros OK; try constructor; auto.
  - inversion OK as [| | |l' Fl|]; subst. clear OK. induction l as [|x l IHl]; constructor; inversion IH; inversion Fl; subst; auto.
  - inversion OK; auto.
  - inversion OK; auto.
  - inversion OK as [| | | |t' Ne ND Ft]; subst. rewrite Forall_forall in *. intros [k v] He. exists v. split; [now apply ProjectProofs.nodup_get|]. apply (IH _ He). apply (Ft _ He).
Qed.
Lemma norm_keys : forall h dep t, map fst (norm_items h dep t) = map fst (filter (fun e => negb (keeps h dep (snd e))) t).
Proof.
  intros h dep t. induction t as [|e t IH]; [reflexivity|]. unfold norm_items. cbn [map concat filter]. fold (norm_items h dep t). rewrite keeps_mode. unfold norm_item.
  destruct (mode h dep (snd e)); cbn [is_none negb app map fst]; now rewrite IH.
Qed.
Lemma split_keys : forall (f : str * tv -> bool) t, NoDup (map fst t) -> NoDup (map fst (filter f t) ++ map fst (filter (fun e => negb (f e)) t)).
Proof.
  intros f t ND. induction t as [|e t IH]; [constructor|]. inversion ND as [|? ? N ND']; subst. specialize (IH ND'). cbn [filter].
  assert (X : ~ In (fst e) (map fst (filter f t) ++ map fst (filter (fun e => negb (f e)) t))).
  { intros X. apply N. apply in_app_iff in X as [X|X]; apply in_map_iff in X as (y & <- & Hy); apply filter_In in Hy as [Hy _]; now apply in_map. }
  destruct (f e); cbn [negb map app]; [now constructor|]. apply NoDup_Add with (a := fst e) (l := map fst (filter f t) ++ map fst (filter (fun e => negb (f e)) t)); [apply Add_app|]. now split.
Qed.
Lemma split_length : forall (f : str * tv -> bool) t, length t = length (filter f t) + length (filter (fun e => negb (f e)) t).
Proof. intros f t. induction t as [|e t IH]; [reflexivity|]. cbn [filter]. destruct (f e); cbn [negb length]; lia. Qed.
Lemma same_items : forall h dep t, NoDup (map fst t) -> Forall val_ok t -> (h = HNone -> hideable t) ->
  Forall (fun e => forall m, shape m (snd e) -> same (snd e) (norm m (S dep) (snd e))) t ->
  same (TTab t) (TTab (kept h (S dep) t ++ norm_items h (S dep) t)).
Proof.
  intros h dep t ND F Hh IH.
  assert (NU : NoDup (map fst (kept h (S dep) t ++ norm_items h (S dep) t))).
  { rewrite map_app, norm_keys. unfold kept. now apply split_keys. }
  constructor; [|exact ND|exact NU|].
  - rewrite app_length, <- (map_length fst (norm_items h (S dep) t)), norm_keys, map_length. unfold kept. apply split_length.
  - rewrite Forall_forall in *. intros [k v] He. cbn [fst snd]. destruct (mode h (S dep) v) as [m|] eqn:M.
    + exists (norm m (S dep) v). split.
      * apply ProjectProofs.nodup_get; [exact NU|]. apply in_app_iff. right. unfold norm_items. apply in_concat. exists (norm_item h (S dep) (k, v)). split; [now apply in_map|].
        unfold norm_item. cbn [snd fst]. rewrite M. now left.
      * apply (IH _ He). exact (mode_shape h dep t (k, v) m Hh He M).
    + exists v. split.
      * apply ProjectProofs.nodup_get; [exact NU|]. apply in_app_iff. left. unfold kept. apply filter_In. split; [exact He|]. rewrite keeps_mode. cbn [snd]. now rewrite M.
      * apply same_refl. apply (F _ He).
Qed.
Lemma norm_same : forall v, inline_ok v -> forall m dep, shape m v \/ (m = HItem /\ is_tab v = true) -> same v (norm m dep v).
Proof.
  induction v as [s|z|b|l IH|t IH] using tv_ind'; intros OK m dep S; try (cbn [norm]; constructor; fail).
  - cbn [norm]. constructor. inversion OK as [| | |l' Fl|]; subst. destruct S as [S|[_ S]]; [|discriminate]. destruct m; try contradiction. destruct S as [_ F]. clear OK.
    induction l as [|x l IHl]; [constructor|]. inversion IH; inversion Fl; inversion F; subst. cbn [map]. constructor; auto.
  - inversion OK as [| | | |t' Ne ND Ft]; subst. rewrite norm_tab. apply same_items; auto.
    + intros ->. destruct S as [S|[S _]]; [exact S|discriminate].
    + rewrite Forall_forall in *. intros e He m2 S2. apply (IH e He (proj2 (Ft e He))). now left.
Qed.

(** * Documents *)
Lemma ends_digit : forall e, inline_ok (snd e) -> exists t c, pair_text e = t ++ [c] /\ is_digit c = is_int (snd e).
Proof.
  intros [k v] _. unfold pair_text. cbn [fst snd]. assert (B : exists t c, body v = t ++ [c] /\ is_digit c = is_int v).
  { destruct v as [s|z|b|l|t].
    - exists (dquote :: esc s), dquote. split; reflexivity.
    - destruct (show_Z_ends z) as (_ & _ & _ & _ & t & d & E & D). exists t, d. split; [exact E|exact D].
    - destruct b; [exists (lit "tru"), "e"%char|exists (lit "fals"), "e"%char]; split; reflexivity.
    - rewrite body_list. exists (lit "[" ++ join (lit ", ") (map body l)), "]"%char. split; [now rewrite <- app_assoc|reflexivity].
    - rewrite body_tab. exists (lit "{" ++ join (lit ", ") (map pair_text t)), "}"%char. split; [now rewrite <- app_assoc|reflexivity]. }
  destruct B as (t & c & -> & D). exists (key_part k ++ " "%char :: "="%char :: " "%char :: t), c. split; [now rewrite <- app_assoc|exact D].
Qed.
Definition ends_in_digit (s : str) : bool := match rev s with [] => false | c :: _ => is_digit c end.
Lemma ends_app : forall a c, ends_in_digit (a ++ [c]) = is_digit c.
Proof. intros a c. unfold ends_in_digit. now rewrite rev_last. Qed.
Lemma last_text_digit : forall a l e, val_ok e -> ends_in_digit (a ++ last_lines l e) = is_int (snd e).
Proof.
  intros a l e [_ I]. unfold last_lines. destruct (ends_digit e I) as (t & c & -> & D). rewrite !app_assoc, ends_app. exact D.
Qed.
Lemma doc_ends : forall l ss, assigns_ok l -> Forall sec_ok ss -> ends_in_digit (rstrip (doc_text l ss)) = ends_with_int (last_assignments l ss).
Proof.
  intros l ss [A _] F. unfold doc_text, last_assignments, ends_with_int. destruct (rev ss) as [|s rs] eqn:Es.
  - assert (ss = []) by (rewrite <- (rev_involutive ss), Es; reflexivity). subst ss. cbn [map concat]. rewrite app_nil_r, rstrip_root.
    destruct (rev l) as [|e r] eqn:El; [reflexivity|]. apply (last_text_digit []). rewrite Forall_forall in A. apply A. rewrite in_rev, El. now left.
  - assert (Es2 : ss = rev rs ++ [s]) by (rewrite <- (rev_involutive ss), Es; reflexivity).
    assert (Fs : sec_ok s) by (rewrite Forall_forall in F; apply F; rewrite in_rev, Es; now left).
    rewrite Es2, map_app, concat_app. cbn [map concat]. rewrite app_nil_r, app_assoc, rstrip_last. destruct s as [[ns item] a]. destruct Fs as (_ & _ & Fa & _). cbn [snd].
    unfold last_text. destruct (rev a) as [|e r] eqn:Ea.
    + destruct (head_ends ns item) as (t & ->). change (lit "]") with ["]"%char]. rewrite app_assoc. now rewrite ends_app.
    + set (pre := assigns_text l ++ concat (map sec_text (rev rs))).
      replace (pre ++ head_text ns item ++ nl :: last_lines (rev r) e) with ((pre ++ head_text ns item ++ [nl]) ++ last_lines (rev r) e) by (rewrite <- !app_assoc; reflexivity).
      apply last_text_digit. rewrite Forall_forall in Fa. apply Fa. rewrite in_rev, Ea. now left.
Qed.
Theorem document_read : forall d, NoDup (map fst d) -> Forall val_ok d -> exists d2, same (TTab d) d2 /\
  loads (dumps d) = if ends_in_digit (dumps d) then Err TypeError else Ok d2.
Proof.
  intros d ND F. exists (norm HTable 0 (TTab d)). split.
  - rewrite norm_tab. apply same_items; auto; [discriminate|]. rewrite Forall_forall in *. intros e He m S. apply norm_same; [apply (F e He)|now left].
  - rewrite dumps_text. pose proof (items_ok HTable 1 d F) as I. pose proof (kept_ok HTable 1 d F ND) as K.
    change (filter (fun e => is_inline 1 (snd e)) d) with (kept HTable 1 d). rewrite doc_ends by auto. apply doc_read; auto.
    rewrite norm_tab. apply items_place; auto; [discriminate|]. rewrite Forall_forall in *. intros e He. apply all_places. apply (F e He).
Qed.
