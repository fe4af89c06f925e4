(** Facts about METADATA files. *)
From Coq Require Import String Ascii List Bool NArith Arith Lia.
From Verif Require Import Base BaseFacts ParserModel ParserFacts MetadataModel.
Import ListNotations.
Open Scope string_scope.
Open Scope nat_scope.
Open Scope list_scope.
Open Scope bool_scope.

(** ** Dictionaries whose last entry changes *)
Lemma set_new : forall (V : Type) k (v : V) d, ~ In k (map fst d) -> dict_set k v d = d ++ [(k, v)].
Proof.
  intros V k v d. induction d as [|[k2 v2] d IH]; intro N; [reflexivity|]. cbn [dict_set app]. cbn [map fst In] in N. destruct (str_eqb k k2) eqn:E; [apply str_eqb_eq in E; exfalso; apply N; left; congruence|]. f_equal. apply IH. intro I. apply N. right. exact I.
Qed.
Lemma set_last : forall (V : Type) k (v w : V) d, ~ In k (map fst d) -> dict_set k v (d ++ [(k, w)]) = d ++ [(k, v)].
Proof.
  intros V k v w d. induction d as [|[k2 v2] d IH]; intro N; cbn [dict_set app]; [rewrite str_eqb_refl; reflexivity|]. cbn [map fst In] in N. destruct (str_eqb k k2) eqn:E; [apply str_eqb_eq in E; exfalso; apply N; left; congruence|]. f_equal. apply IH. intro I. apply N. right. exact I.
Qed.
Lemma get_last : forall (V : Type) k (w : V) d, ~ In k (map fst d) -> dict_get k (d ++ [(k, w)]) = Some w.
Proof.
  intros V k w d. induction d as [|[k2 v2] d IH]; intro N; cbn [dict_get app]; [rewrite str_eqb_refl; reflexivity|]. cbn [map fst In] in N. destruct (str_eqb k k2) eqn:E; [apply str_eqb_eq in E; exfalso; apply N; left; congruence|]. apply IH. intro I. apply N. right. exact I.
Qed.
Lemma get_new : forall (V : Type) k (d : list (str * V)), ~ In k (map fst d) -> dict_get k d = None.
Proof. intros V k d N. destruct (dict_get k d) as [v|] eqn:E; [|reflexivity]. exfalso. apply N. apply dict_get_in in E. apply in_map_iff. exists (k, v). auto. Qed.

(** ** Messages *)
(** what the email package may make of a value: a first line, and more lines that start with a blank *)
Definition folded (t : str) : Prop := exists l0 ls, t = join [lf] (l0 :: ls) /\ (forall l, In l (l0 :: ls) -> ~ In lf l) /\ skip_blanks l0 = l0 /\ Forall (fun l => match l with c :: _ => is_blank c = true | [] => False end) ls.
Definition header_name (k : str) : Prop := k <> [] /\ forallb name_char k = true.
Lemma split_join_more : forall c l rest, l <> [] -> (forall w, In w l -> ~ In c w) -> split_on c (join [c] l ++ c :: rest) = l ++ split_on c rest.
Proof.
  intros c l rest N H. induction l as [|w l IH]; [congruence|]. destruct l as [|w2 l].
  - cbn [join]. rewrite split_on_app by (apply H; left; reflexivity). reflexivity.
  - change (join [c] (w :: w2 :: l)) with (w ++ [c] ++ join [c] (w2 :: l)). rewrite <- !app_assoc. cbn [app]. rewrite split_on_app by (apply H; left; reflexivity). f_equal. apply IH; [discriminate|]. intros x X. apply H. right. exact X.
Qed.
Lemma name_no : forall c, name_char c = true -> Ascii.eqb c ":" = false /\ is_blank c = false /\ Ascii.eqb c lf = false.
Proof. intros c H. destruct c as [[] [] [] [] [] [] [] []]; vm_compute in H; try discriminate; repeat split; reflexivity. Qed.
Lemma join_cons : forall (c : ascii) l0 ls, join [c] (l0 :: ls) = l0 ++ concat (map (fun l => c :: l) ls).
Proof.
  intros c l0 ls. revert l0. induction ls as [|l ls IH]; intro l0; [cbn; rewrite app_nil_r; reflexivity|]. change (join [c] (l0 :: l :: ls)) with (l0 ++ [c] ++ join [c] (l :: ls)). rewrite IH. cbn [map concat app]. reflexivity.
Qed.
Lemma header_line : forall k l0, header_name k -> is_header (k ++ lit ": " ++ l0) = true.
Proof.
  intros k l0 [N F]. unfold is_header. apply orb_true_iff. right. rewrite (span_app name_char k (lit ": " ++ l0)); [reflexivity|exact F|reflexivity].
Qed.
Lemma continued : forall ls k v more, Forall (fun l => match l with c :: _ => is_blank c = true | [] => False end) ls ->
  parse_headers (Some (k, v)) (ls ++ more) = parse_headers (Some (k, v ++ concat (map (fun l => lf :: l) ls))) more.
Proof.
  induction ls as [|l ls IH]; intros k v more H; [cbn; rewrite app_nil_r; reflexivity|]. inversion H as [|? ? A B]; subst. destruct l as [|c l]; [destruct A|]. cbn [app parse_headers]. rewrite A. rewrite IH by exact B. cbn [map concat]. rewrite <- app_assoc. reflexivity.
Qed.
Lemma one_header : forall last k t l0 ls more, header_name k -> t = join [lf] (l0 :: ls) -> skip_blanks l0 = l0 -> Forall (fun l => match l with c :: _ => is_blank c = true | [] => False end) ls ->
  parse_headers last ((k ++ lit ": " ++ l0) :: ls ++ more) = match last with Some h => [h] | None => [] end ++ parse_headers (Some (k, t)) more.
Proof.
  intros last k t l0 ls more [N F] T L B. destruct k as [|c k]; [congruence|]. assert (C : name_char c = true) by (cbn in F; apply andb_true_iff in F; apply F). destruct (name_no c C) as (_ & C2 & _). cbn [parse_headers]. cbn [app]. rewrite C2.
  change (c :: k ++ lit ": " ++ l0) with ((c :: k) ++ lit ": " ++ l0). rewrite (span_app _ (c :: k)).
  - cbn [lit app list_ascii_of_string]. replace (skip_blanks (" "%char :: l0)) with l0.
    + f_equal. rewrite continued by exact B. rewrite <- join_cons, T. reflexivity.
    + unfold skip_blanks in *. cbn [span]. change (is_blank " ") with true. cbn match. destruct (span is_blank l0) as [a b] eqn:E. cbn [snd] in *. congruence.
  - apply forallb_forall. intros x X. rewrite forallb_forall in F. destruct (name_no x (F x X)) as (-> & _). reflexivity.
  - reflexivity.
Qed.
Lemma rstrip_folded : forall t, folded t -> rstrip_lf t = t.
Proof.
  intros t (l0 & ls & -> & N & _ & B). unfold rstrip_lf. assert (E : forall s, (s = [] \/ exists r c, s = r ++ [c] /\ c <> lf) -> rev (snd (span (Ascii.eqb lf) (rev s))) = s).
  { intros s [->|(r & c & -> & C)]; [reflexivity|]. rewrite rev_app_distr. cbn [rev app span]. destruct (Ascii.eqb lf c) eqn:Q; [apply Ascii.eqb_eq in Q; congruence|]. cbn [snd]. change (c :: rev r) with (rev [c] ++ rev r). rewrite <- rev_app_distr. apply rev_involutive. }
  apply E. rewrite join_cons. destruct ls as [|l ls] using rev_ind.
  - cbn. rewrite app_nil_r. destruct l0 as [|c l0] using rev_ind; [left; reflexivity|]. right. exists l0, c. split; [reflexivity|]. intros ->. apply (N (l0 ++ [lf]) (or_introl eq_refl)). apply in_or_app. right. left. reflexivity.
  - clear IHls. right. apply Forall_app in B as [_ B]. inversion B as [|? ? B1 _]; subst. rewrite map_app, concat_app. cbn [map concat]. rewrite app_nil_r. destruct l as [|c l] using rev_ind; [destruct B1|].
    exists (l0 ++ concat (map (fun l => lf :: l) ls) ++ lf :: l), c. split; [rewrite <- !app_assoc; cbn [app]; rewrite ?app_assoc; reflexivity|]. intros ->. apply (N (l ++ [lf])); [right; apply in_or_app; right; left; reflexivity|]. apply in_or_app. right. left. reflexivity.
Qed.
Lemma header_lines_app : forall ls more, Forall (fun l => is_header l = true) ls -> header_lines (ls ++ more) = ls ++ header_lines more.
Proof. intros ls more H. induction H as [|l ls A B IH]; [reflexivity|]. cbn [app header_lines]. rewrite A, IH. reflexivity. Qed.
Lemma message_text : forall fold hs payload last, (forall k v, In (k, v) hs -> header_name k /\ folded (fold k v)) ->
  parse_headers last (header_lines (split_on lf (concat (map (header_text fold) hs) ++ [lf] ++ payload))) = match last with Some h => [h] | None => [] end ++ map (fun h => (fst h, fold (fst h) (snd h))) hs.
Proof.
  intros fold hs payload. induction hs as [|[k v] hs IH]; intros last H.
  - cbn [map concat app]. change (lf :: payload) with ([] ++ lf :: payload). rewrite split_on_app by intros []. cbn. rewrite app_nil_r. reflexivity.
  - destruct (H k v (or_introl eq_refl)) as [K (l0 & ls & T & N & L & B)]. cbn [map concat]. unfold header_text at 1. cbn [fst snd]. rewrite T. rewrite <- !app_assoc. cbn [app]. rewrite join_cons, <- app_assoc.
    replace (k ++ lit ": " ++ l0 ++ concat (map (fun l => lf :: l) ls) ++ lf :: concat (map (header_text fold) hs) ++ lf :: payload) with (join [lf] ((k ++ lit ": " ++ l0) :: ls) ++ lf :: (concat (map (header_text fold) hs) ++ lf :: payload)) by (rewrite join_cons, <- !app_assoc; reflexivity).
    rewrite split_join_more; [|discriminate|].
    + rewrite header_lines_app.
      * cbn [app]. rewrite (one_header last k (fold k v) l0 ls) by assumption. f_equal. rewrite IH by (intros k1 v1 I; apply H; right; exact I). cbn [app]. rewrite T, join_cons. reflexivity.
      * constructor; [apply header_line, K|]. apply Forall_forall. intros l I. rewrite Forall_forall in B. specialize (B l I). unfold is_header. destruct l as [|c l]; [destruct B|]. rewrite B. reflexivity.
    + intros w [<-|I]; [|apply N; right; exact I]. intro X. apply in_app_or in X as [X|X].
      * destruct K as [_ K]. rewrite forallb_forall in K. destruct (name_no lf (K lf X)) as (_ & _ & D). discriminate.
      * apply in_app_or in X as [X|X]; [cbn in X; intuition discriminate|]. exact (N l0 (or_introl eq_refl) X).
Qed.
Lemma message_parsed : forall fold hs payload, (forall k v, In (k, v) hs -> header_name k /\ folded (fold k v)) ->
  parse_message (concat (map (header_text fold) hs) ++ [lf] ++ payload) = map (fun h => (fst h, fold (fst h) (snd h))) hs.
Proof.
  intros fold hs payload H. unfold parse_message. rewrite message_text by exact H. cbn [app]. rewrite map_map. apply map_ext_in. intros [k v] I. cbn [fst snd]. destruct (H k v I) as [_ F]. rewrite rstrip_folded by exact F. reflexivity.
Qed.

(** ** Entries *)
Lemma add_more : forall l k l0 d, ~ In k (map fst d) -> l0 <> [] -> fold_left add_header (map (fun v => (k, v)) l) (d ++ [(k, MList l0)]) = d ++ [(k, MList (l0 ++ l))].
Proof.
  induction l as [|v l IH]; intros k l0 d N L; [cbn; rewrite app_nil_r; reflexivity|]. cbn [map fold_left]. assert (E : add_header (d ++ [(k, MList l0)]) (k, v) = d ++ [(k, MList (l0 ++ [v]))]).
  { unfold add_header. rewrite get_last by exact N. destruct (is_multi k); apply set_last; exact N. }
  rewrite E. rewrite IH; [rewrite <- app_assoc; reflexivity|exact N|destruct l0; discriminate].
Qed.
(** entries whose shape is kept *)
Definition kept (k : str) (v : mval) : Prop :=
  match v with
  | MStr _ => is_multi k = false
  | MList l => if is_multi k then l <> [] else 2 <= length l /\ hd [] l <> []
  end.
Definition values (v : mval) : list str := match v with MStr s => [s] | MList l => l end.
Lemma add_entry : forall k v d, ~ In k (map fst d) -> kept k v -> fold_left add_header (map (fun s => (k, s)) (values v)) d = d ++ [(k, v)].
Proof.
  intros k v d N K. destruct v as [s|l]; cbn [values kept] in *.
  - cbn [map fold_left]. unfold add_header. rewrite K. rewrite get_new by exact N. apply set_new. exact N.
  - destruct (is_multi k) eqn:M.
    + destruct l as [|v l]; [congruence|]. cbn [map fold_left]. replace (add_header d (k, v)) with (d ++ [(k, MList [v])]).
      * rewrite add_more; [reflexivity|exact N|discriminate].
      * unfold add_header. rewrite M, get_new by exact N. symmetry. apply set_new. exact N.
    + destruct K as [L H]. destruct l as [|v [|w l]]; [cbn in L; lia|cbn in L; lia|]. cbn [hd] in H. destruct v as [|c v]; [congruence|]. cbn [map fold_left].
      assert (E1 : add_header d (k, c :: v) = d ++ [(k, MStr (c :: v))]) by (unfold add_header; rewrite M, get_new by exact N; apply set_new; exact N).
      assert (E2 : add_header (add_header d (k, c :: v)) (k, w) = d ++ [(k, MList [c :: v; w])]) by (rewrite E1; unfold add_header; rewrite M, get_last by exact N; apply set_last; exact N).
      transitivity (fold_left add_header (map (fun v => (k, v)) l) (d ++ [(k, MList [c :: v; w])])); [f_equal; exact E2|]. exact (add_more l k [c :: v; w] d N ltac:(discriminate)).
Qed.
Lemma add_entries : forall data d, NoDup (map fst (d ++ data)) -> (forall k v, In (k, v) data -> kept k v) -> fold_left add_header (flat_map (fun e => map (fun s => (fst e, s)) (values (snd e))) data) d = d ++ data.
Proof.
  induction data as [|[k v] data IH]; intros d N K; [cbn; rewrite app_nil_r; reflexivity|]. cbn [flat_map fst snd]. rewrite fold_left_app. rewrite add_entry.
  - rewrite IH; [rewrite <- app_assoc; reflexivity|rewrite <- app_assoc; exact N|intros k' v' I; apply K; right; exact I].
  - rewrite map_app in N. cbn [map fst] in N. intro I. apply NoDup_remove_2 in N. apply N. apply in_or_app. left. exact I.
  - apply K. left. reflexivity.
Qed.
(** what is written: values of one line *)
Definition one_line (s : str) : Prop := existsb (Ascii.eqb lf) s = false.
Lemma store_all_ok : forall k l, (forall s, In s l -> one_line s) -> store_all k l = Ok (map (fun s => (k, s)) l).
Proof.
  intros k l H. induction l as [|s l IH]; [reflexivity|]. cbn [store_all]. unfold store. rewrite (H s (or_introl eq_refl)). cbn [bind]. rewrite IH by (intros x X; apply H; right; exact X). reflexivity.
Qed.
Definition without_description (data : list (str * mval)) : list (str * mval) := filter (fun e => negb (str_eqb (fst e) "Description")) data.
Lemma headers_ok : forall data, (forall k v, In (k, v) data -> (is_multi k = true -> exists l, v = MList l) /\ (k <> lit "Description" -> forall s, In s (values v) -> one_line s)) ->
  headers_of (map (fun e => (fst e, Some (snd e))) data) = Ok (flat_map (fun e => map (fun s => (fst e, s)) (values (snd e))) (without_description data)).
Proof.
  induction data as [|[k v] data IH]; intro H; [reflexivity|]. specialize (IH (fun k' v' I => H k' v' (or_intror I))). cbn [map headers_of fst snd]. destruct (H k v (or_introl eq_refl)) as [A B].
  replace (is_multi k && match v with MList _ => false | MStr _ => true end) with false by (destruct (is_multi k); [destruct (A eq_refl) as (l & ->)|]; reflexivity).
  unfold without_description. cbn [filter fst]. destruct (str_eqb k "Description") eqn:D; cbn [negb]; [exact IH|]. assert (N : k <> lit "Description") by (intros ->; rewrite str_eqb_refl in D; discriminate). specialize (B N). rewrite IH. cbn [flat_map fst snd]. destruct v as [s|l]; cbn [values] in *.
  - unfold store. rewrite (B s (or_introl eq_refl)). reflexivity.
  - rewrite store_all_ok by exact B. reflexivity.
Qed.
Lemma filter_true_in : forall (A : Type) (f : A -> bool) l, (forall x, In x l -> f x = true) -> filter f l = l.
Proof. intros A f l H. induction l as [|x l IH]; [reflexivity|]. cbn [filter]. rewrite (H x (or_introl eq_refl)), IH; [reflexivity|]. intros y Y. apply H. right. exact Y. Qed.
