(** Proofs about whole installations of wheels. *)
From Coq Require Import String Ascii List Bool NArith Arith Lia.
From Verif Require Import Base BaseFacts ParserModel PthModel FsModel FsFacts FilesModel FilesProofs CopyTxModel CopyTxSpec CopyTxProofs VersionModel VersionParse ArtifactModel
  RecordFileModel RecordFileProofs InstallModel RemovalProofs WheelModel WheelSpec WheelProofs.
Import ListNotations.
Open Scope string_scope.
Open Scope nat_scope.
Open Scope list_scope.
Open Scope bool_scope.

(** ** Names *)
Lemma data_name_stem : forall stem, data_name (stem ++ lit ".dist-info") = stem ++ lit ".data".
Proof.
  intro stem. unfold data_name. rewrite app_length. replace (length stem + length (lit ".dist-info") - length (lit ".dist-info")) with (length stem) by lia.
  rewrite firstn_app, firstn_all, Nat.sub_diag. cbn [firstn]. rewrite app_nil_r. reflexivity.
Qed.
Lemma info_not_data : forall stem, stem ++ lit ".dist-info" <> stem ++ lit ".data".
Proof. intros stem H. apply app_inv_head in H. discriminate. Qed.
Lemma ends_with_app : forall suf s, ends_with suf s = true <-> exists a, s = a ++ suf.
Proof.
  intros suf s. unfold ends_with. rewrite starts_with_iff. split; intros (r & H).
  - exists (rev r). rewrite <- (rev_involutive s), H, rev_app_distr, rev_involutive. reflexivity.
  - exists (rev r). subst s. rewrite rev_app_distr. reflexivity.
Qed.
Lemma cached_iff : forall tag p q, cached tag p q <-> is_python p = true /\ q = cache_of tag p.
Proof.
  intros tag p q. unfold cached. split.
  - intros (n & d & -> & N & ->). cbn [is_python cache_of]. split.
    + apply andb_true_iff. split; [apply ends_with_app; exists n; reflexivity|]. apply negb_true_iff, str_eqb_neq. intro E. apply N.
      assert (L : length (n ++ lit ".py") = length (lit ".py")) by (rewrite E; reflexivity). rewrite app_length in L. destruct n; [reflexivity|cbn in L; lia].
    + rewrite app_length. replace (length n + length (lit ".py") - 3) with (length n) by (cbn; lia). rewrite firstn_app, firstn_all, Nat.sub_diag. cbn [firstn]. rewrite app_nil_r. reflexivity.
  - intros [P ->]. destruct p as [|m d]; [discriminate|]. cbn [is_python] in P. apply andb_true_iff in P. destruct P as [P N]. apply ends_with_app in P. destruct P as (n & ->).
    exists n, d. split; [reflexivity|]. split; [intros ->; apply negb_true_iff, str_eqb_neq in N; apply N; reflexivity|]. cbn [cache_of].
    rewrite app_length. replace (length n + length (lit ".py") - 3) with (length n) by (cbn; lia). rewrite firstn_app, firstn_all, Nat.sub_diag. cbn [firstn]. rewrite app_nil_r. reflexivity.
Qed.
Lemma launched_iff : forall tg entries p, launched tg entries p <-> launcher_of tg entries p.
Proof.
  intros tg entries p. unfold launched, launcher_of. split; intros (e & I & S & E); exists e; (split; [exact I|]; split; [|exact E]).
  - unfold is_script in S. apply orb_true_iff in S. destruct S as [S|S]; apply str_eqb_eq in S; auto.
  - unfold is_script. apply orb_true_iff. destruct S as [S|S]; rewrite S; [left|right]; reflexivity.
Qed.
Lemma own_iff : forall info q, special info q <-> own info q.
Proof. intros info q. unfold special, own. cbn [map In]. intuition. Qed.

(** ** Records *)
Lemma map_res_in : forall A B (f : A -> res B) l ys, map_res f l = Ok ys -> (forall y, In y ys -> exists x, In x l /\ f x = Ok y) /\ (forall x, In x l -> exists y, In y ys /\ f x = Ok y).
Proof.
  intros A B f l. induction l as [|x l IH]; intros ys H; cbn [map_res] in H; [injection H as <-; split; intros y []|].
  destruct (f x) as [y|] eqn:F; [|discriminate]. cbn [bind] in H. destruct (map_res f l) as [r|] eqn:M; [|discriminate]. injection H as <-. destruct (IH r eq_refl) as [A1 A2]. split.
  - intros z [<-|I]; [exists x; split; [left; reflexivity|exact F]|]. destruct (A1 z I) as (w & W & E). exists w. split; [right; exact W|exact E].
  - intros z [<-|I]; [exists y; split; [left; reflexivity|exact F]|]. destruct (A2 z I) as (w & W & E). exists w. split; [right; exact W|exact E].
Qed.
Definition sign_of (h : hashlib) (pre : list (str * signature)) (name s : str) (sig : signature) : Prop :=
  match dict_get name pre with Some x => sig = x | None => exists g, h (lit "sha256") = Some g /\ sig = Sig "sha256" (g s) end.
Lemma sign_all_spec : forall h pre f site l new, sign_all h pre f site l = Ok new ->
  (forall p s, In p l -> lookup f p = Some (File s) -> exists r sig, path_to (length site) site p = Some r /\ sign_of h pre (join "/" r) s sig /\
     In (Rec (Some (join "/" r)) (Some sig) (Some (N.of_nat (length s)))) new) /\
  (forall x, In x new -> exists p s r sig, In p l /\ lookup f p = Some (File s) /\ path_to (length site) site p = Some r /\ sign_of h pre (join "/" r) s sig /\
     x = Rec (Some (join "/" r)) (Some sig) (Some (N.of_nat (length s)))).
Proof.
  intros h pre f site l new H. unfold sign_all in H. destruct (map_res _ l) as [rs|] eqn:M; [|discriminate]. cbn [bind] in H. injection H as <-. apply map_res_in in M. destruct M as [M1 M2].
  assert (K : forall p ys, sign_one h pre f site p = Ok ys -> match lookup f p with
    | Some (File s) => exists r sig, path_to (length site) site p = Some r /\ sign_of h pre (join "/" r) s sig /\ ys = [Rec (Some (join "/" r)) (Some sig) (Some (N.of_nat (length s)))]
    | _ => ys = [] end).
  { intros p ys E. unfold sign_one in E. destruct (lookup f p) as [[s|]|]; try congruence. destruct (path_to _ site p) as [r|]; [|discriminate]. exists r.
    destruct (dict_get (join "/" r) pre) as [sig|] eqn:D; cbn [bind] in E.
    - injection E as <-. exists sig. split; [reflexivity|]. split; [unfold sign_of; rewrite D; reflexivity|reflexivity].
    - destruct (h (lit "sha256")) as [g|] eqn:G; [|discriminate]. cbn [bind] in E. injection E as <-. exists (Sig "sha256" (g s)). split; [reflexivity|].
      split; [unfold sign_of; rewrite D; eauto|reflexivity]. }
  split.
  - intros p s I L. destruct (M2 p I) as (ys & Y & E). apply K in E. rewrite L in E. destruct E as (r & sig & A & B & ->). exists r, sig. split; [exact A|]. split; [exact B|].
    apply in_concat. eexists. split; [exact Y|]. left. reflexivity.
  - intros x X. apply in_concat in X. destruct X as (ys & Y & X). destruct (M1 ys Y) as (p & I & E). apply K in E. destruct (lookup f p) as [[s|]|] eqn:L; [|subst ys; destruct X|subst ys; destruct X].
    destruct E as (r & sig & A & B & ->). destruct X as [<-|[]]. exists p, s, r, sig. auto.
Qed.
Lemma parsed_tidy : forall t s, parse_signature t = Ok s -> tidy_signature s.
Proof.
  intros t s H. unfold parse_signature in H. destruct (split_on "=" t) as [|a [|b [|]]] eqn:E; try discriminate. injection H as <-.
  assert (N : ~ In "="%char a /\ ~ In "="%char b) by (split; apply (split_on_no_char "=" t); rewrite E; [left|right; left]; reflexivity).
  unfold tidy_signature. cbn [s_type s_value].
  assert (L : forall x, lstrip_ws (lstrip_ws x) = lstrip_ws x).
  { induction x as [|ch x IH]; [reflexivity|]. cbn [lstrip_ws]. destruct (is_space ch) eqn:S; [exact IH|]. cbn [lstrip_ws]. rewrite S. reflexivity. }
  assert (I : forall ch x, In ch (lstrip_ws x) -> In ch x).
  { intro ch. induction x as [|y x IH]; intro J; [exact J|]. cbn [lstrip_ws] in J. destruct (is_space y); [right; exact (IH J)|exact J]. }
  split; [|split; [|split]].
  - intro X. apply (proj1 N). unfold rstrip_ws in X. apply in_rev in X. apply I in X. apply in_rev. exact X.
  - intro X. apply (proj2 N). apply I. exact X.
  - unfold rstrip_ws. rewrite rev_involutive, L. reflexivity.
  - apply L.
Qed.
Definition tidy (r : record) : Prop := forall s, rec_hash r = Some s -> tidy_signature s.
Lemma loaded_tidy : forall text l, load_records text = Ok l -> forall r, In r l -> tidy r.
Proof.
  intros text l H r I s E. unfold load_records in H. destruct (csv_read text) as [rows|]; [|discriminate]. cbn [bind] in H. destruct (map_res row_dict rows) as [ds|]; [|discriminate]. cbn [bind] in H.
  apply map_res_in in H. destruct H as [H _]. destruct (H r I) as ([[fl hs] n] & _ & P). unfold parse_record in P. destruct hs as [[|ch t]|].
  - cbn [bind] in P. destruct (match n with None | Some [] => Ok None | Some t => _ end) as [k|]; [|discriminate]. injection P as <-. discriminate E.
  - destruct (parse_signature (ch :: t)) as [sg|] eqn:S; [|discriminate]. cbn [bind] in P. destruct (match n with None | Some [] => Ok None | Some t => _ end) as [k|]; [|discriminate].
    injection P as <-. injection E as <-. exact (parsed_tidy _ _ S).
  - cbn [bind] in P. destruct (match n with None | Some [] => Ok None | Some t => _ end) as [k|]; [|discriminate]. injection P as <-. discriminate E.
Qed.
Lemma saved_complete : forall l text, save_records l = (Ok tt, text) -> forall r, In r l -> complete r.
Proof.
  induction l as [|x l IH]; intros text H r I; [destruct I|]. cbn [save_records] in H. unfold record_row in H. destruct (rec_file x) eqn:A, (rec_hash x) eqn:B, (rec_length x) eqn:C; try discriminate.
  destruct (save_records l) as [y t] eqn:S. injection H as -> H. destruct I as [<-|I]; [unfold complete; rewrite A, B, C; repeat split; discriminate|]. exact (IH t eq_refl r I).
Qed.
Lemma saved_loads : forall l text, save_records l = (Ok tt, text) -> (forall r, In r l -> tidy r) -> load_records text = Ok l.
Proof.
  intros l text H T. replace text with (snd (save_records l)) by (rewrite H; reflexivity). apply load_saved. intros r I. split; [exact (saved_complete l text H r I)|exact (T r I)].
Qed.

(** ** The names of records *)
Lemma resolve_walk : forall r from, (forall n, In n r -> n = lit ".." \/ proper n) -> fold_left resolve_component r from = walk from r.
Proof.
  induction r as [|n r IH]; intros from H; [reflexivity|]. cbn [fold_left walk]. rewrite IH by (intros m M; apply H; right; exact M). f_equal. unfold resolve_component.
  destruct (H n (or_introl eq_refl)) as [->|(A & B & C & D)]; [reflexivity|].
  assert (E1 : str_eqb n "" = false) by (apply str_eqb_neq; exact A). assert (E2 : str_eqb n "." = false) by (apply str_eqb_neq; exact C). rewrite E1, E2. reflexivity.
Qed.
Lemma recorded_name : forall site p r, p <> [] -> Forall proper p -> path_to (length site) site p = Some r -> resolve_record site (join "/" r) = p.
Proof.
  intros site p r N P H. assert (ND : ~ In (lit "..") p) by (intro X; rewrite Forall_forall in P; destruct (P _ X) as (_ & _ & _ & Y); congruence).
  destruct (path_to_ok site p N ND) as (r' & E & W & up & down & R & D). rewrite H in E. injection E as <-.
  assert (IN : forall n, In n r -> n = lit ".." \/ proper n).
  { intros n I. unfold path_to in H. destruct (path_to_loop (length site) site (parents p) 0) as [[d back]|]; [|discriminate]. injection H as <-. apply in_app_or in I. destruct I as [I|I].
    - left. apply repeat_spec in I. exact I.
    - right. apply in_rev in I. rewrite Forall_forall in P. apply P. unfold rel_to in I. rewrite <- (firstn_skipn (length p - length d) p). apply in_or_app. left. exact I. }
  assert (NE : r <> []).
  { intros ->. cbn [walk] in W. subst site. destruct p as [|a p]; [congruence|]. unfold path_to in H. destruct (path_to_loop _ _ _ 0) as [[d back]|] eqn:L; [|discriminate].
    injection H as H. apply app_eq_nil in H. destruct H as [H1 H2]. destruct back; [|discriminate H1].
    assert (Q : In (a :: p) (parents (a :: p))).
    { cbn [length path_to_loop] in L. destruct (path_mem (a :: p) (parents (a :: p))) eqn:M; [apply path_mem_iff; exact M|]. exfalso. cbn [FilesModel.parent tl] in L.
      assert (B : forall fuel q k d, path_to_loop fuel q (parents (a :: p)) (S k) = Some (d, 0) -> False).
      { induction fuel as [|fuel IHf]; intros q k d0 X; cbn [path_to_loop] in X; destruct (path_mem q _); try discriminate. apply IHf in X. exact X. }
      exact (B _ _ _ _ L). }
    apply in_parents in Q. destruct Q as (c & q & Q). assert (LN : length (a :: p) = length (c :: q ++ a :: p)) by (rewrite <- Q; reflexivity). cbn in LN. rewrite app_length in LN. cbn in LN. lia. }
  assert (NS : forall n, In n r -> ~ In "/"%char n).
  { intros n I. destruct (IN n I) as [->|(_ & X & _)]; [cbn; intuition discriminate|exact X]. }
  unfold resolve_record. pose proof (split_join "/" r NE NS) as SJ. change (join ["/"%char] r) with (join "/" r) in SJ.
  assert (HD : match join "/" r with "/"%char :: _ => fold_left resolve_component (split_on "/" (join "/" r)) [] | _ => fold_left resolve_component (split_on "/" (join "/" r)) site end
             = fold_left resolve_component (split_on "/" (join "/" r)) site).
  { destruct r as [|n r]; [congruence|]. assert (X : exists ch rest, join "/" (n :: r) = ch :: rest /\ In ch n).
    { destruct n as [|ch n]; [exfalso; destruct (IN [] (or_introl eq_refl)) as [Y|(Y & _)]; [discriminate|congruence]|]. exists ch. destruct r; cbn [join app]; eexists; split; try reflexivity; left; reflexivity. }
    destruct X as (ch & rest & X & Y). rewrite X. specialize (NS n (or_introl eq_refl)). destruct (Ascii.eqb ch "/") eqn:C; [apply Ascii.eqb_eq in C; subst; contradiction|].
    destruct ch as [[] [] [] [] [] [] [] []]; try reflexivity; discriminate C. }
  rewrite HD, SJ, (resolve_walk r site IN). exact W.
Qed.

(** ** Launchers *)
Lemma launchers_split : forall tg l e b t b' t', launcher_steps tg l b t = Go b' t' -> In e l ->
  exists l1 l2 b1 t1 b2 t2, l = l1 ++ e :: l2 /\ launcher_steps tg l1 b t = Go b1 t1 /\ launcher_step tg e b1 t1 = Go b2 t2 /\ launcher_steps tg l2 b2 t2 = Go b' t'.
Proof.
  intros tg l e b t b' t' H I. apply in_split in I. destruct I as (l1 & l2 & ->). exists l1, l2. unfold launcher_steps in *. rewrite fold_left_app in H. cbn [fold_left] in H.
  assert (X : forall l o b' t', fold_left (fun o e => and_then o (launcher_step tg e)) l o = Go b' t' -> exists b1 t1, o = Go b1 t1).
  { induction l as [|x l IH]; intros o b0 t0 Y; [eauto|]. cbn [fold_left] in Y. apply IH in Y. destruct Y as (b1 & t1 & Y). apply and_then_go in Y. destruct Y as (b2 & t2 & Y & _). eauto. }
  destruct (X _ _ _ _ H) as (b2 & t2 & Y). apply and_then_go in Y. destruct Y as (b1 & t1 & Y & Z). exists b1, t1, b2, t2. rewrite Y in H. cbn [and_then] in H. rewrite Z in H. auto.
Qed.
Lemma launchers_content : forall tg l e b t b' t', launcher_steps tg l b t = Go b' t' -> In e l -> is_script e = true ->
  exists body, snippet (e_ref e) = Ok body /\
    ((forall x, In x l -> is_script x = true -> under (resolve_record (t_scripts tg) (e_name x)) (resolve_record (t_scripts tg) (e_name e)) = true ->
        e_ref x = e_ref e /\ resolve_record (t_scripts tg) (e_name x) = resolve_record (t_scripts tg) (e_name e)) ->
     lookup (fsys t') (resolve_record (t_scripts tg) (e_name e)) = Some (File (launcher (t_interpreter tg) body))).
Proof.
  intros tg l e b t b' t' H I S. destruct (launchers_split tg l e b t b' t' H I) as (l1 & l2 & b1 & t1 & b2 & t2 & E & _ & A & B).
  apply launcher_frame in A. destruct A as (_ & _ & _ & A). destruct (A S) as (body & SN & L). exists body. split; [exact SN|]. intro U.
  assert (K : forall l2 b2 t2, launcher_steps tg l2 b2 t2 = Go b' t' -> (forall x, In x l2 -> In x l) -> lookup (fsys t2) (resolve_record (t_scripts tg) (e_name e)) = Some (File (launcher (t_interpreter tg) body)) ->
    lookup (fsys t') (resolve_record (t_scripts tg) (e_name e)) = Some (File (launcher (t_interpreter tg) body))).
  { clear - U SN S. induction l2 as [|x l2 IH]; intros b2 t2 H SUB L; [injection H as <- <-; exact L|]. destruct (launchers_split tg (x :: l2) x b2 t2 b' t' H (or_introl eq_refl)) as (k1 & k2 & b3 & t3 & b4 & t4 & E & P & Q & R).
    assert (X : exists b3 t3, launcher_step tg x b2 t2 = Go b3 t3 /\ launcher_steps tg l2 b3 t3 = Go b' t').
    { unfold launcher_steps in H. cbn [fold_left and_then] in H. assert (Z : exists b3 t3, launcher_step tg x b2 t2 = Go b3 t3).
      { clear - H. revert H. generalize (launcher_step tg x b2 t2). induction l2 as [|y l IH]; intros o Y; [eauto|]. cbn [fold_left] in Y. apply IH in Y. destruct Y as (b1 & t1 & Y). apply and_then_go in Y. destruct Y as (b3 & t3 & Y & _). eauto. }
      destruct Z as (b5 & t5 & Z). rewrite Z in H. exists b5, t5. auto. }
    clear - X IH U SN S SUB L. destruct X as (b3 & t3 & X & Y). apply (IH b3 t3 Y); [intros z Z; apply SUB; right; exact Z|]. apply launcher_frame in X. destruct X as (F & _ & _ & X). destruct (is_script x) eqn:SX.
    - destruct (under (resolve_record (t_scripts tg) (e_name x)) (resolve_record (t_scripts tg) (e_name e))) eqn:UX.
      + destruct (U x (SUB x (or_introl eq_refl)) SX UX) as [ER EP]. destruct (X eq_refl) as (body' & SN' & L'). rewrite ER, SN in SN'. injection SN' as <-. rewrite EP in L'. exact L'.
      + apply (fr_keep _ _ _ (proj1 F)); [exact L|]. intros p (y & [<-|[]] & _ & ->). exact UX.
    - apply (fr_keep _ _ _ (proj1 F)); [exact L|]. intros p (y & [<-|[]] & Z & _). congruence. }
  apply (K l2 b2 t2 B); [|exact L]. intros x X. rewrite E. apply in_or_app. right. right. exact X.
Qed.

(** ** An installation that succeeds *)
Lemma dict_set_from : forall V k (v : V) d x y, In (x, y) (dict_set k v d) -> In (x, y) d \/ (x = k /\ y = v).
Proof.
  intros V k v d. induction d as [|[k' w] d IH]; intros x y I; cbn [dict_set] in I; [destruct I as [I|[]]; injection I as <- <-; auto|].
  destruct (str_eqb k k') eqn:E; destruct I as [I|I].
  - injection I as <- <-. right. apply str_eqb_eq in E. auto.
  - left. right. exact I.
  - left. left. exact I.
  - destruct (IH x y I) as [X|X]; [left; right; exact X|right; exact X].
Qed.
Lemma dict_from : forall V (l : list (str * V)) k v, dict_get k (dict_of l) = Some v -> In (k, v) l.
Proof.
  intros V l k v H. assert (G : forall l d, In (k, v) (fold_left (fun d e => dict_set (fst e) (snd e) d) l d) -> In (k, v) d \/ In (k, v) l).
  { induction l0 as [|[a w] l0 IH]; intros d I; [left; exact I|]. cbn [fold_left] in I. apply IH in I. destruct I as [I|I]; [|right; right; exact I].
    apply dict_set_from in I. destruct I as [I|[-> ->]]; [left; exact I|right; left; reflexivity]. }
  apply dict_get_in in H. destruct (G l [] H) as [[]|X]. exact X.
Qed.
Lemma parts_fun : forall tg key a b, In (key, a) (parts tg) -> In (key, b) (parts tg) -> a = b.
Proof. intros tg key a b A B. apply get_place_iff in A. apply get_place_iff in B. congruence. Qed.
Lemma belongs_fun : forall tg site data r p q, belongs tg site data r p -> belongs tg site data r q -> p = q.
Proof.
  intros tg site data r p q A B. inversion A as [n x N|key dir x NE I]; subst; inversion B as [m y M|key' dir' y NE' I']; subst.
  - reflexivity.
  - destruct N as [N|N]; [congruence|discriminate].
  - destruct M as [M|M]; [congruence|discriminate].
  - rewrite (parts_fun tg key dir dir' I I'). reflexivity.
Qed.
Lemma opened_content : forall h ini c skip name purelib entries c' records, open_wheel h ini c skip = Ok (name, purelib, entries, c', records) -> c' = prune_content c.
Proof.
  intros h ini c skip name purelib entries c' records H. unfold open_wheel in H. destruct (find_dist_info c) as [[n i]|]; [|discriminate]. cbn [bind] in H.
  destruct (text_of (lit "WHEEL") i); [|discriminate]. cbn [bind] in H. destruct (wheel_config _); [|discriminate]. cbn [bind] in H. destruct (text_of (lit "entry_points.txt") i) as [ep|]; [|discriminate]. cbn [bind] in H.
  destruct (match ep with Some t => ini t | None => Ok [] end); [|discriminate]. cbn [bind] in H. destruct (text_of (lit "RECORD") i) as [rc|]; [|discriminate]. cbn [bind] in H.
  destruct (match rc with Some t => load_records t | None => Ok [] end); [|discriminate]. cbn [bind] in H. destruct (if skip then _ else _); [|discriminate]. cbn [bind] in H. injection H as _ _ _ <- _. reflexivity.
Qed.
Section Done.
  Variables (h : hashlib) (ini : str -> res (list (str * list (str * str)))) (compile : path -> str -> option str) (tag : str) (order : list path -> list path).
  Variables (tg : target) (c : content) (request mode : option str) (skip : bool) (b : nat) (f : fs).
  Variables (stem : str) (purelib : bool) (entries : list entry) (c' : content) (records : list record) (f' : fs).
  Hypothesis opened : open_wheel h ini c skip = Ok (stem ++ lit ".dist-info", purelib, entries, c', records).
  Hypothesis order_same : forall l p, In p (order l) <-> In p l.
  Hypothesis ok : wf_fs f.
  Hypothesis installed : install_extracted h ini compile tag order tg c request mode skip b f = Installed f'.
  Notation name := (stem ++ lit ".dist-info").
  Notation site := (site_of tg purelib).
  Notation info := (name :: site).
  Notation pre := (if skip then [] else precomputed_hashes (named_records records)).
  Notation brings := (brought tg site stem tag entries c).
  Lemma went : exists b' t', transaction h compile tag order tg name purelib entries c' pre request mode b f = Go b' t' /\ f' = fsys t'.
  Proof.
    unfold install_extracted in installed. rewrite opened in installed. destruct (transaction _ _ _ _ _ _ _ _ _ _ _ _ _ _) as [b' t'|t'] eqn:T; [|discriminate].
    injection installed as <-. eauto.
  Qed.
  Lemma copied_all : exists b1 t1, run_actions b (tx_start f) (copy_actions tg site name c') = Go b1 t1.
  Proof. destruct went as (b' & t' & T & _). unfold transaction in T. apply and_then_go in T. destruct T as (b1 & t1 & T & _). eauto. Qed.
  Lemma placed_iff : forall p, placed tg name purelib c' p <-> exists r s, wheel_file c name r s /\ belongs tg site (stem ++ lit ".data") r p.
  Proof.
    intro p. rewrite <- data_name_stem. unfold placed, written. split.
    - intros (a & s & A & W). apply copy_sound in A. destruct A as (_ & A & _). destruct (A p s W) as (r & x & F & B & _ & N). exists r, x. split; [|exact B]. split.
      + rewrite (opened_content _ _ _ _ _ _ _ _ _ opened) in F. apply (proj1 (prune_content_files _ _ _)) in F. exact F.
      + apply N. rewrite data_name_stem. apply info_not_data.
    - intros (r & s & [F N] & B). apply (proj2 (prune_content_files _ _ _)) in F. rewrite <- (opened_content _ _ _ _ _ _ _ _ _ opened) in F.
      destruct (copy_complete tg site name c' r s F N) as [(e & E)|(a & q & A & Q & W)].
      + exfalso. destruct copied_all as (b1 & t1 & R). exact (run_no_stop _ _ _ _ _ e R E).
      + rewrite (belongs_fun _ _ _ _ _ _ B Q). eauto.
  Qed.
  Lemma brings_iff : forall p, brings p <-> placed tg name purelib c' p \/ launched tg entries p \/ compiled tag tg name purelib entries c' p.
  Proof.
    intro p. unfold compiled, source. split.
    - intros [r s q W B|q L|r s q k W B K|q k L K].
      + left. apply placed_iff. eauto.
      + right. left. apply launched_iff. exact L.
      + right. right. apply cached_iff in K. exists q. split; [split; [left; apply placed_iff; eauto|apply K]|apply K].
      + right. right. apply cached_iff in K. exists q. split; [split; [right; apply launched_iff; exact L|apply K]|apply K].
    - intros [P|[L|(q & [[P|L] S] & E)]].
      + apply placed_iff in P. destruct P as (r & s & W & B). eapply from_wheel; eauto.
      + apply from_entry. apply launched_iff. exact L.
      + apply placed_iff in P. destruct P as (r & s & W & B). eapply from_source; eauto. apply cached_iff. auto.
      + eapply from_launcher; [apply launched_iff; exact L|]. apply cached_iff. auto.
  Qed.
  Lemma done_spec : exists f1 f2 f3 old new text,
    frame (placed tg name purelib c') f f1 /\ frame (launched tg entries) f1 f2 /\ frame (compiled tag tg name purelib entries c') f2 f3 /\ frame (own info) f3 f' /\
    (forall p s, (exists a, In a (copy_actions tg site name c') /\ writes a = Some (p, s)) ->
       (forall a q x, In a (copy_actions tg site name c') -> writes a = Some (q, x) -> under q p = true -> q = p /\ x = s) -> lookup f1 p = Some (File s)) /\
    (forall e, In e entries -> is_script e = true -> exists body, snippet (e_ref e) = Ok body /\
       ((forall x, In x entries -> is_script x = true -> under (resolve_record (t_scripts tg) (e_name x)) (resolve_record (t_scripts tg) (e_name e)) = true ->
          e_ref x = e_ref e /\ resolve_record (t_scripts tg) (e_name x) = resolve_record (t_scripts tg) (e_name e)) ->
        lookup f2 (resolve_record (t_scripts tg) (e_name e)) = Some (File (launcher (t_interpreter tg) body)))) /\
    load_record_file f3 (lit "RECORD" :: info) = Ok old /\ save_records (old ++ new) = (Ok tt, text) /\ lookup f' (lit "RECORD" :: info) = Some (File text) /\
    (forall q s, brings q -> lookup f3 q = Some (File s) -> exists r sig, path_to (length site) site q = Some r /\ sign_of h pre (join "/" r) s sig /\
       In (Rec (Some (join "/" r)) (Some sig) (Some (N.of_nat (length s)))) new) /\
    (forall x, In x new -> exists q s r sig, lookup f3 q = Some (File s) /\ path_to (length site) site q = Some r /\ sign_of h pre (join "/" r) s sig /\
       x = Rec (Some (join "/" r)) (Some sig) (Some (N.of_nat (length s)))).
  Proof.
    destruct went as (b' & t' & T & EF). destruct (transaction_spec h compile tag order tg name purelib entries c' pre request mode order_same b f b' t' ok T)
      as (b1 & t1 & b2 & t2 & t3 & old & new & text & A & B0 & B & C & D & E & F & G & S & R).
    rewrite <- EF in D, R. exists (fsys t1), (fsys t2), (fsys t3), old, new, text.
    split; [apply (run_frame _ _ _ _ _ (copy_usual tg site name c') A)|]. split; [exact B|]. split; [exact C|]. split; [eapply frame_weaken; [|exact D]; intros q X; apply own_iff; exact X|].
    split; [|split; [|split; [exact F|split; [exact S|split; [exact R|]]]]].
    - intros p s X Y. eapply run_placed; [apply copy_usual|exact A|exact Y|right; exact X].
    - intros e I IS. exact (launchers_content tg entries e b1 t1 b2 t2 B0 I IS).
    - apply sign_all_spec in G. destruct G as [G1 G2]. split.
      + intros q s X L. apply (G1 q s); [|exact L]. apply order_same. apply E. apply brings_iff. exact X.
      + intros x X. destruct (G2 x X) as (p & s & r & sig & _ & Y). exists p, s, r, sig. exact Y.
  Qed.
  (** everything but the own files *)
  Lemma done_frame : exists f3, frame brings f f3 /\ frame (own info) f3 f'.
  Proof.
    destruct done_spec as (f1 & f2 & f3 & old & new & text & A & B & C & D & _). exists f3. split; [|exact D].
    eapply frame_trans; [eapply frame_weaken; [|exact A]; intros p X; apply brings_iff; auto|].
    eapply frame_trans; [eapply frame_weaken; [|exact B]; intros p X; apply brings_iff; auto|].
    eapply frame_weaken; [|exact C]; intros p X; apply brings_iff; auto.
  Qed.
  (** digests that a record can hold *)
  Hypothesis digests : forall g s, h (lit "sha256") = Some g -> ~ In "="%char (g s) /\ lstrip_ws (g s) = g s.
  Lemma pre_tidy : forall k sig, dict_get k pre = Some sig -> tidy_signature sig.
  Proof.
    intros k sig D. destruct skip eqn:SK; [discriminate|]. apply dict_from in D. apply in_flat_map in D. destruct D as ([n o] & I & J). cbn [fst snd] in J. destruct o as [x|]; [|destruct J].
    destruct J as [J|[]]. injection J as -> ->. unfold named_records in I. apply in_flat_map in I. destruct I as (r & I & J). destruct (rec_file r); [|destruct J]. destruct J as [J|[]]. injection J as _ J.
    unfold open_wheel in opened. destruct (find_dist_info c) as [[n0 i]|]; [|discriminate]. cbn [bind] in opened.
    destruct (text_of (lit "WHEEL") i); [|discriminate]. cbn [bind] in opened. destruct (wheel_config _); [|discriminate]. cbn [bind] in opened. destruct (text_of (lit "entry_points.txt") i) as [ep|]; [|discriminate]. cbn [bind] in opened.
    destruct (match ep with Some t => ini t | None => Ok [] end); [|discriminate]. cbn [bind] in opened. destruct (text_of (lit "RECORD") i) as [rc|]; [|discriminate]. cbn [bind] in opened.
    destruct (match rc with Some t => load_records t | None => Ok [] end) as [rs|] eqn:L; [|discriminate]. cbn [bind] in opened. destruct (verify_records _ _); [|discriminate]. cbn [bind] in opened. injection opened as _ _ _ _ ->.
    destruct rc as [t|]; [|injection L as <-; destruct I]. exact (loaded_tidy t records L r I sig J).
  Qed.
  Lemma done_listed : forall q s, Forall proper q -> q <> [] -> brings q -> ~ own info q -> lookup f' q = Some (File s) -> listed f' info q.
  Proof.
    intros q s P N B O L. destruct done_spec as (f1 & f2 & f3 & old & new & text & _ & _ & _ & D & _ & _ & LO & S & R & G & G2).
    destruct (fr_files _ _ _ D q s L) as [L3|X]; [|contradiction]. destruct (G q s B L3) as (r & sig & E & SG & I).
    exists text, (old ++ new). eexists. exists (join "/" r). split; [exact R|]. split; [|split; [apply in_or_app; right; exact I|split; [reflexivity|apply recorded_name; assumption]]].
    apply saved_loads; [exact S|]. intros x X. apply in_app_or in X. destruct X as [X|X].
    - unfold load_record_file in LO. destruct (lookup f3 _) as [[t|]|]; [|discriminate|injection LO as <-; destruct X]. exact (loaded_tidy t old LO x X).
    - destruct (G2 x X) as (q' & s' & r' & sg & _ & _ & SG' & ->). intros z Z. injection Z as <-. unfold sign_of in SG'. destruct (dict_get (join "/" r') pre) as [y|] eqn:DG.
      + subst sg. exact (pre_tidy _ _ DG).
      + destruct SG' as (g & H1 & ->). destruct (digests g s' H1) as [A1 A2]. split; [cbn; intuition discriminate|]. split; [exact A1|]. split; [reflexivity|exact A2].
  Qed.
End Done.

(** ** Installing and removing *)
Lemma removal_sub : forall di rs f f', removal di rs f f' -> forall p n, lookup f' p = Some n -> lookup f p = Some n.
Proof.
  intros di rs f f' (f1 & f2 & U & C & ->) p n L. rewrite lookup_remove_tree in L. destruct (under di p); [discriminate|]. apply (clean_sub _ _ _ _ C) in L.
  destruct (unlink_all_spec _ _ _ U) as (A & B & _). destruct (in_dec (list_eq_dec (list_eq_dec ascii_dec)) p (installed_files di rs)) as [I|I]; [rewrite (A p I) in L; discriminate|].
  rewrite (B p I) in L. exact L.
Qed.
Lemma listed_removed : forall info f text l names q, lookup f (lit "RECORD" :: info) = Some (File text) -> load_records text = Ok l -> map rec_file l = map Some names ->
  (In q (installed_files info names) <-> listed f info q \/ q = lit "RECORD" :: info).
Proof.
  intros info f text l names q T L M. unfold installed_files. rewrite in_app_iff. cbn [In]. split.
  - intros [I|[<-|[]]]; [left|right; reflexivity]. apply in_map_iff in I. destruct I as (n & E & I). assert (J : In (Some n) (map rec_file l)) by (rewrite M; apply in_map; exact I).
    apply in_map_iff in J. destruct J as (r & R & J). exists text, l, r, n. auto.
  - intros [(t & l' & r & n & T' & L' & I & R & E)|<-]; [left|right; left; reflexivity]. rewrite T in T'. injection T' as <-. rewrite L in L'. injection L' as <-. apply in_map_iff. exists n. split; [exact E|].
    assert (J : In (Some n) (map Some names)) by (rewrite <- M, <- R; apply in_map; exact I). apply in_map_iff in J. destruct J as (m & X & J). injection X as <-. exact J.
Qed.
Section Round.
  Variables (info : path) (f f' f2 : fs) (brings : path -> Prop).
  Hypothesis ok : wf_fs f.
  Hypothesis frames : exists f3, frame brings f f3 /\ frame (own info) f3 f'.
  Hypothesis lists : forall q s, brings q -> ~ own info q -> lookup f' q = Some (File s) -> listed f' info q.
  Hypothesis removed : uninstalled info f' f2.
  (** nothing of it was there before *)
  Hypothesis no_info : lookup f info = None.
  Hypothesis fresh : forall q, brings q -> lookup f q = None.
  Hypothesis fresh_listed : forall q, listed f' info q -> lookup f q = None.
  (** no compiled files of others in the directories that are cleaned up *)
  Hypothesis no_cache : forall d q p s, listed f' info q \/ q = lit "RECORD" :: info -> under d (parent q) = true -> eligible (parent info) d = true ->
    lookup f p = Some (File s) -> under (pycache d) p = false.
  Lemma info_out : forall p, lookup f p <> None -> under info p = false.
  Proof. intros p L. destruct (under info p) eqn:U; [|reflexivity]. exfalso. exact (wf_under f info p ok U L no_info). Qed.
  Lemma kept_install : forall p n, lookup f p = Some n -> lookup f' p = Some n.
  Proof.
    intros p n L. destruct frames as (f3 & A & B). apply (fr_keep _ _ _ B); [apply (fr_keep _ _ _ A); [exact L|]|].
    - intros q Q. destruct (under q p) eqn:U; [|reflexivity]. exfalso. apply (wf_under f q p ok U); [congruence|exact (fresh q Q)].
    - intros q Q. destruct (under q p) eqn:U; [|reflexivity]. exfalso. unfold own in Q. apply in_map_iff in Q. destruct Q as (m & <- & _).
      assert (X : under info p = false) by (apply info_out; congruence). assert (Y : under info p = true) by (eapply under_trans; [apply under_cons|exact U]). congruence.
  Qed.
  Lemma round_files : forall p s, lookup f2 p = Some (File s) <-> lookup f p = Some (File s).
  Proof.
    destruct removed as (text & l & names & T & L & M & R). intros p s. split.
    - intro H. pose proof (removal_sub _ _ _ _ R p _ H) as H1. assert (G : ~ (In p (installed_files info names) \/ under info p = true)) by (intro X; rewrite (removal_gone _ _ _ _ R p X) in H; discriminate).
      assert (O : ~ own info p) by (intro X; apply G; right; apply in_map_iff in X; destruct X as (m & <- & _); apply under_cons).
      destruct frames as (f3 & A & B). destruct (fr_files _ _ _ B p s H1) as [H3|X]; [|contradiction]. destruct (fr_files _ _ _ A p s H3) as [X|X]; [exact X|]. exfalso. apply G. left.
      apply (listed_removed info f' text l names p T L M). left. exact (lists p s X O H1).
    - intro H. assert (E : lookup f p <> None) by congruence. apply (removal_files _ _ _ _ R); [exact (kept_install p _ H)| |exact (info_out p E)|].
      + intro X. apply (listed_removed info f' text l names p T L M) in X. destruct X as [X|X]; [apply E; exact (fresh_listed p X)|]. subst p. pose proof (info_out _ E) as Y. rewrite under_cons in Y. discriminate.
      + intros d q Q U EL. apply (listed_removed info f' text l names q T L M) in Q. exact (no_cache d q p s Q U EL H).
  Qed.
  Lemma round_dirs : forall r d s, lookup f (r ++ d) = Some (File s) -> r <> [] -> lookup f2 d = Some Dir.
  Proof.
    destruct removed as (text & l & names & T & L & M & R).
    assert (K : forall r d s, lookup f (r ++ d) = Some (File s) -> lookup f2 d <> None).
    { induction r as [|x r IH] using rev_ind; intros d s H; [cbn [app] in H; apply round_files in H; congruence|]. rewrite <- app_assoc in H. cbn [app] in H. intro N.
      pose proof (IH (x :: d) s H) as C. assert (D : lookup f d = Some Dir) by (apply (wf_above f (r ++ [x]) d ok); [rewrite <- app_assoc; cbn [app]; congruence|destruct r; discriminate]).
      destruct (removal_dirs _ _ _ _ R d (kept_install d _ D) N) as [U|[(e & q & Q & U & EL & P)|(q & Q & U & EL & E)]].
      - assert (Y : under info d = false) by (apply info_out; congruence). congruence.
      - apply (listed_removed info f' text l names q T L M) in Q. pose proof (no_cache e q _ s Q U EL H) as Y.
        assert (Z : under (pycache e) (r ++ x :: d) = true) by (eapply under_trans; [exact P|]; eapply under_trans; [apply (under_cons x)|apply under_app]). congruence.
      - exact (C (E x)). }
    intros r d s H NE. pose proof (K r d s H) as X. assert (D : lookup f d = Some Dir) by (apply (wf_above f r d ok); [congruence|exact NE]).
    destruct (lookup f2 d) as [n|] eqn:E; [|congruence]. pose proof (removal_sub _ _ _ _ R d n E) as Y. rewrite (kept_install d _ D) in Y. injection Y as <-. reflexivity.
  Qed.
  (** no new directory is left below the site *)
  Hypothesis plain_names : forall p n, lookup f' p = Some n -> Forall plain p.
  Hypothesis plain_site : Forall plain (parent info).
  Hypothesis no_empty : forall d, under (parent info) d = true -> is_empty_directory f' d = true -> lookup f d = Some Dir.
  Lemma round_new_dirs : forall d, under (parent info) d = true -> d <> parent info -> lookup f2 d = Some Dir -> lookup f d = Some Dir.
  Proof.
    destruct removed as (text & l & names & T & L & M & R).
    assert (B : exists m, forall p n, lookup f2 p = Some n -> length p <= m).
    { exists (list_max (map (fun e => length (fst e)) f2)). intros p n X. apply lookup_in in X. assert (Y : Forall (fun k => k <= list_max (map (fun e => length (fst e)) f2)) (map (fun e => length (fst e)) f2)) by (apply list_max_le; lia).
      rewrite Forall_forall in Y. apply Y. apply in_map_iff. exists (p, n). auto. }
    destruct B as (m & B).
    assert (K : forall k d, m - length d <= k -> under (parent info) d = true -> d <> parent info -> lookup f2 d = Some Dir -> lookup f d = None -> False).
    { induction k as [|k IH]; intros d D U N E Z.
      - assert (X : is_empty_directory f2 d = false).
        { apply (removal_no_empty _ _ _ _ R); [|destruct (is_empty_directory f' d) eqn:X; [pose proof (no_empty d U X); congruence|reflexivity]].
          unfold eligible. apply andb_true_iff. split; [apply negb_true_iff, path_eqb_neq; exact N|]. apply is_relative_to_under; [exact (plain_names d _ (removal_sub _ _ _ _ R d _ E))|exact plain_site|exact U]. }
        apply not_empty_iff in X. destruct X as [X|(x & X)]; [congruence|]. destruct (lookup f2 (x :: d)) as [n|] eqn:Y; [|congruence]. pose proof (B _ _ Y) as Q. cbn [length] in Q. lia.
      - assert (X : is_empty_directory f2 d = false).
        { apply (removal_no_empty _ _ _ _ R); [|destruct (is_empty_directory f' d) eqn:X; [pose proof (no_empty d U X); congruence|reflexivity]].
          unfold eligible. apply andb_true_iff. split; [apply negb_true_iff, path_eqb_neq; exact N|]. apply is_relative_to_under; [exact (plain_names d _ (removal_sub _ _ _ _ R d _ E))|exact plain_site|exact U]. }
        apply not_empty_iff in X. destruct X as [X|(x & X)]; [congruence|]. destruct (lookup f2 (x :: d)) as [n|] eqn:Y; [|congruence].
        assert (G : lookup f (x :: d) = None) by (destruct (lookup f (x :: d)) as [g|] eqn:G; [|reflexivity]; pose proof (proj2 ok x d) as H; rewrite H in Z by congruence; discriminate).
        destruct n as [s|]; [apply round_files in Y; congruence|]. apply (IH (x :: d)); [cbn [length]; pose proof (B _ _ Y) as Q; cbn [length] in Q; lia|eapply under_trans; [exact U|apply under_cons]| |exact Y|exact G].
        intro Q. apply under_len in U. rewrite <- Q in U. cbn [length] in U. lia. }
    intros d U N E. destruct (lookup f d) as [n|] eqn:Z; [|exfalso; exact (K _ d (le_n _) U N E Z)]. pose proof (kept_install d n Z) as Y. rewrite (removal_sub _ _ _ _ R d _ E) in Y. congruence.
  Qed.
End Round.

(** ** What is read of a wheel *)
Lemma opened_parts : forall h ini c skip name purelib entries c' records, open_wheel h ini c skip = Ok (name, purelib, entries, c', records) ->
  exists cs wheel ep sections rc, In (name, TDir cs) c /\ ends_with ".dist-info" name = true /\ name <> lit ".dist-info" /\
    (forall n t, In (n, t) c -> ends_with ".dist-info" n = true -> n = name) /\
    text_of (lit "WHEEL") cs = Ok wheel /\ wheel_config wheel = Ok purelib /\
    text_of (lit "entry_points.txt") cs = Ok ep /\ match ep with Some t => ini t | None => Ok [] end = Ok sections /\ entries = entries_of sections /\
    c' = prune_content c /\ text_of (lit "RECORD") cs = Ok rc /\ match rc with Some t => load_records t | None => Ok [] end = Ok records /\
    (skip = false -> verify_records h (Wheel (map (fun e => (relative_str (fst e), snd e)) (tree_files [] (TDir c'))) name (option_map (fun _ => named_records records) rc)) = Ok tt).
Proof.
  intros h ini c skip name purelib entries c' records H. unfold open_wheel in H. destruct (find_dist_info c) as [[n i]|] eqn:F; [|discriminate]. cbn [bind] in H.
  destruct (text_of (lit "WHEEL") i) as [w|] eqn:W; [|discriminate]. cbn [bind] in H. destruct (wheel_config w) as [pl|] eqn:P; [|discriminate]. cbn [bind] in H. destruct (text_of (lit "entry_points.txt") i) as [ep|] eqn:E; [|discriminate]. cbn [bind] in H.
  destruct (match ep with Some t => ini t | None => Ok [] end) as [sc|] eqn:S; [|discriminate]. cbn [bind] in H. destruct (text_of (lit "RECORD") i) as [rc|] eqn:R; [|discriminate]. cbn [bind] in H.
  destruct (match rc with Some t => load_records t | None => Ok [] end) as [rs|] eqn:L; [|discriminate]. cbn [bind] in H. destruct (if skip then _ else _) as [[]|] eqn:V; [|discriminate]. cbn [bind] in H. injection H as <- <- <- <- <-.
  unfold find_dist_info in F. destruct (filter _ c) as [|[m t] [|]] eqn:FI; try discriminate; [|destruct t; discriminate]. destruct t as [x|cs]; [discriminate|]. destruct (str_eqb m ".dist-info") eqn:D; [discriminate|]. injection F as <- <-.
  assert (IN : In (m, TDir cs) (filter (fun e => ends_with ".dist-info" (fst e)) c)) by (rewrite FI; left; reflexivity). apply filter_In in IN. destruct IN as [I1 I2].
  exists cs, w, ep, sc, rc. split; [exact I1|]. split; [exact I2|]. split; [apply str_eqb_neq; exact D|]. split.
  { intros n0 t J K. assert (X : In (n0, t) (filter (fun e => ends_with ".dist-info" (fst e)) c)) by (apply filter_In; auto). rewrite FI in X. destruct X as [X|[]]. congruence. }
  split; [exact W|]. split; [exact P|]. split; [exact E|]. split; [exact S|]. split; [reflexivity|]. split; [reflexivity|]. split; [exact R|]. split; [exact L|]. intros ->. exact V.
Qed.
Lemma tree_files_in : forall t r s at_, has_file t r s -> In (rev r ++ at_, s) (tree_files at_ t).
Proof.
  induction t as [x|cs IH] using tree_ind'; intros r s at_ H.
  - inversion H; subst. left. reflexivity.
  - inversion H as [|n cs' c r' s' I F]; subst. rewrite Forall_forall in IH. specialize (IH _ I r' s (n :: at_) F). cbn [snd] in IH. cbn [rev]. rewrite <- app_assoc. cbn [app tree_files].
    clear - I IH. induction cs as [|[m d] cs IHl]; [destruct I|]. apply in_or_app. destruct I as [I|I]; [injection I as -> ->; left; exact IH|right; apply IHl; exact I].
Qed.
Lemma path_to_below : forall r site, r <> [] -> path_to (length site) site (rev r ++ site) = Some r.
Proof.
  intros r site N. unfold path_to. assert (M : path_mem site (parents (rev r ++ site)) = true).
  { apply path_mem_iff, in_parents. destruct (rev r) as [|a l] eqn:E; [apply (f_equal (@rev str)) in E; rewrite rev_involutive in E; cbn in E; congruence|]. exists a, l. reflexivity. }
  replace (path_to_loop (length site) site (parents (rev r ++ site)) 0) with (Some (site, 0)) by (destruct (length site); cbn [path_to_loop]; rewrite M; reflexivity).
  cbn [repeat app]. rewrite rel_to_app, rev_involutive. reflexivity.
Qed.

(** ** The paths of a concrete installation *)
Definition places (tg : target) (site : path) (data : str) (r : list str) : list path :=
  match r with
  | [] => []
  | n :: r' =>
      if str_eqb n data
      then match r' with
           | [] => [n :: site]
           | key :: q => map (fun e => rev q ++ snd e) (filter (fun e => str_eqb (fst e) key) (parts tg))
           end
      else [rev r ++ site]
  end.
Definition reach (tg : target) (site : path) (stem tag : str) (entries : list entry) (c : content) : list path :=
  let first := flat_map (fun e => if path_eqb (firstn 2 (rev (fst e))) [stem ++ lit ".dist-info"; lit "RECORD"] then [] else places tg site (stem ++ lit ".data") (rev (fst e))) (tree_files [] (TDir c)) ++
               map (fun e => resolve_record (t_scripts tg) (e_name e)) (filter is_script entries) in
  first ++ map (cache_of tag) (filter is_python first).
Lemma places_in : forall tg site data r q, belongs tg site data r q -> In q (places tg site data r).
Proof.
  intros tg site data r q G. destruct G as [n r Z|key dir r NE I]; cbn [places].
  - destruct (str_eqb n data) eqn:EN; [|left; reflexivity]. apply str_eqb_eq in EN. destruct Z as [Z| ->]; [contradiction|]. left. reflexivity.
  - rewrite str_eqb_refl. apply in_map_iff. exists (key, dir). split; [reflexivity|]. apply filter_In. split; [exact I|]. cbn [fst]. apply str_eqb_refl.
Qed.
Lemma reach_in : forall tg site stem tag entries c p, brought tg site stem tag entries c p -> In p (reach tg site stem tag entries c).
Proof.
  intros tg site stem tag entries c p B. unfold reach.
  set (first := flat_map _ _ ++ _).
  assert (W : forall r s q, wheel_file c (stem ++ lit ".dist-info") r s -> belongs tg site (stem ++ lit ".data") r q -> In q first).
  { intros r s q [F N] G. unfold first. apply in_or_app. left. apply in_flat_map. exists (rev r, s). split; [rewrite <- (app_nil_r (rev r)); apply tree_files_in; exact F|]. cbn [fst]. rewrite rev_involutive.
    destruct (path_eqb _ _) eqn:E.
    - exfalso. apply path_eqb_eq in E. destruct r as [|a [|b r]]; try discriminate. cbn [firstn] in E. injection E as -> ->. apply N. exists r. reflexivity.
    - apply places_in. exact G. }
  assert (L : forall q, launcher_of tg entries q -> In q first).
  { intros q (e & I & G & ->). unfold first. apply in_or_app. right. apply in_map_iff. exists e. split; [reflexivity|]. apply filter_In. split; [exact I|]. unfold is_script. apply orb_true_iff. rewrite !str_eqb_eq. exact G. }
  assert (C : forall a q, In a first -> cached tag a q -> In q (map (cache_of tag) (filter is_python first))).
  { intros a q I K. apply cached_iff in K. destruct K as [K ->]. apply in_map. apply filter_In. auto. }
  apply in_or_app. destruct B as [r s q X Y|q X|r s a q X Y K|a q X K]; [left; eauto|left; eauto|right; eapply C; eauto|right; eapply C; eauto].
Qed.
(** ** Concrete file systems *)
Lemma wf_check : forall f, is_dir f [] && forallb (fun e => match fst e with [] => true | _ :: q => is_dir f q end) f = true -> wf_fs f.
Proof.
  intros f H. apply andb_true_iff in H. destruct H as [H1 H2]. unfold is_dir in H1. split; [destruct (lookup f []) as [[|]|]; congruence|].
  intros n p L. destruct (lookup f (n :: p)) as [x|] eqn:E; [|congruence]. apply lookup_in in E. rewrite forallb_forall in H2. specialize (H2 _ E). cbn [fst] in H2. unfold is_dir in H2. destruct (lookup f p) as [[|]|]; congruence.
Qed.
Definition proper_b (n : str) : bool := negb (str_eqb n []) && negb (existsb (Ascii.eqb "/") n) && negb (str_eqb n ".") && negb (str_eqb n "..").
Lemma proper_check : forall p, forallb proper_b p = true -> Forall proper p.
Proof.
  intros p H. rewrite forallb_forall in H. apply Forall_forall. intros n I. specialize (H n I). unfold proper_b in H. rewrite !andb_true_iff, !negb_true_iff in H. destruct H as [[[A B] C] D].
  split; [apply str_eqb_neq; exact A|]. split; [|split; apply str_eqb_neq; assumption]. intro X. apply not_true_iff_false in B. apply B. apply existsb_exists. exists "/"%char. split; [exact X|apply Ascii.eqb_refl].
Qed.
