From Coq Require Import String Ascii List Bool NArith Arith Lia.
From Verif Require Import Base BaseFacts ParserModel ParserFacts VersionModel VersionSpec VersionParserModel.
Import ListNotations.
Open Scope string_scope.
Open Scope nat_scope.
Open Scope list_scope.
Open Scope bool_scope.

(** characters that can continue a version text *)
Definition cont (c : ascii) : bool :=
  is_alnum c || existsb (Ascii.eqb c) ["."; "-"; "_"; "+"; "!"]%char.
Definition stops (r : str) : Prop := head_not cont r.

Lemma stops_cases : forall r, stops r -> r = [] \/ exists c r', r = c :: r' /\ cont c = false.
Proof. intros [|c r] H; auto. right. exists c, r. auto. Qed.
Lemma stop_neq : forall x c, cont c = false -> cont x = true -> Ascii.eqb x c = false.
Proof. intros x c Hc Hx. apply (neq_by cont); auto. Qed.
Lemma cont_digit : forall c, cont c = false -> is_digit c = false.
Proof. intros c H. unfold cont, is_alnum in H. destruct (is_digit c); auto. Qed.
Lemma cont_label : forall c, cont c = false -> is_label_char c = false.
Proof.
  intros c H. unfold is_label_char. rewrite (Ascii.eqb_sym c "."), (Ascii.eqb_sym c "-"), (Ascii.eqb_sym c "_").
  rewrite !(stop_neq _ c H) by reflexivity. unfold cont in H. destruct (is_alnum c); auto.
Qed.

Ltac stopc H := repeat match goal with
  | |- context [Ascii.eqb ?x ?c] => rewrite (stop_neq x c H) by reflexivity
  end.

Lemma digit_neq : forall x d, is_digit d = true -> is_digit x = false -> Ascii.eqb x d = false.
Proof. intros x d H1 H2. rewrite Ascii.eqb_sym. apply (neq_by is_digit); auto. Qed.

Lemma opt_number_show : forall n b r, head_not is_digit r ->
  opt_number (PS b (show_N n ++ r)) = (n, PS (rev (show_N n) ++ b) r).
Proof.
  intros n b r H. unfold opt_number. rewrite (take_while_app is_digit _ _ _ (show_N_digits n) H).
  destruct (show_N n) eqn:E; [exfalso; apply (show_N_nonempty n E)|]. rewrite <- E, read_show_N. reflexivity.
Qed.
Lemma read_digits_show : forall n b r, head_not is_digit r ->
  read_digits (PS b (show_N n ++ r)) = Ok (show_N n, PS (rev (show_N n) ++ b) r).
Proof.
  intros n b r H. unfold read_digits. rewrite (take_while_app is_digit _ _ _ (show_N_digits n) H).
  destruct (show_N n) eqn:E; [exfalso; apply (show_N_nonempty n E)|]. reflexivity.
Qed.

(** suffix texts *)
Definition t_local (o : option str) : str := match o with Some l => "+"%char :: l | None => [] end.
Definition t_dev (o : option N) : str := match o with Some n => lit ".dev" ++ show_N n | None => [] end.
Definition t_post (o : option N) : str := match o with Some n => lit ".post" ++ show_N n | None => [] end.
Definition t_pre (o : option (str * N)) : str := match o with Some (t, n) => t ++ show_N n | None => [] end.
Definition t_rel (ns : list N) : str := concat (map (fun n => "."%char :: show_N n) ns).

Lemma join_t_rel : forall n ns, join (lit ".") (map show_N (n :: ns)) = show_N n ++ t_rel ns.
Proof.
  intros n ns. revert n. induction ns as [|m ns IH]; intro n.
  - simpl. rewrite app_nil_r. reflexivity.
  - change (join (lit ".") (map show_N (n :: m :: ns)))
      with (show_N n ++ lit "." ++ join (lit ".") (map show_N (m :: ns))).
    rewrite IH. reflexivity.
Qed.

(** the local stage *)
Definition label_char_ok (c : ascii) : bool := is_digit c || is_lower c || Ascii.eqb c "."%char.
Definition label_wf (v : sv) : Prop := forall l, local_label v = Some l -> forallb label_char_ok l = true.

Lemma label_char_ok_label : forall c, label_char_ok c = true -> is_label_char c = true /\ label_translate c = c.
Proof.
  intros c H. unfold label_char_ok in H. unfold is_label_char, label_translate, is_alnum.
  destruct (Ascii.eqb_spec c "-"); [subst; discriminate|]. destruct (Ascii.eqb_spec c "_"); [subst; discriminate|].
  split; auto. destruct (Ascii.eqb c "."), (is_digit c), (is_lower c); simpl in *; auto; discriminate.
Qed.

Lemma read_local_ok : forall o b r, (forall l, o = Some l -> forallb label_char_ok l = true) -> stops r ->
  exists b', read_local (PS b (t_local o ++ r)) = (o, PS b' r)
    /\ b' = (match o with Some l => rev l ++ ["+"%char] ++ b | None => b end).
Proof.
  intros [l|] b r Hl Hr.
  - specialize (Hl l eq_refl). cbn [t_local]. unfold read_local.
    change (("+"%char :: l) ++ r) with (lit "+" ++ (l ++ r)). rewrite pmatch_app.
    rewrite (take_while_app is_label_char l).
    + eexists. split; [|reflexivity]. f_equal.
      * f_equal. transitivity (map (fun c => c) l); [|apply map_id]. apply map_ext_in.
        intros c Hc. apply label_char_ok_label. rewrite forallb_forall in Hl. auto.
    + rewrite forallb_forall in *. intros c Hc. apply label_char_ok_label. auto.
    + destruct (stops_cases r Hr) as [->|(c & r' & -> & Hc)]; [reflexivity|]. apply cont_label. exact Hc.
  - simpl. exists b. split; auto. unfold read_local. rewrite pmatch_fail; auto.
    destruct (stops_cases r Hr) as [->|(c & r' & -> & Hc)]; [reflexivity|]. simpl. stopc Hc. reflexivity.
Qed.

(** a text that does not start like a separator, a digit or a letter: what follows the dev part *)
Definition plus_or_stop (r : str) : Prop := stops r \/ exists r', r = "+"%char :: r'.
Lemma plus_or_stop_local : forall o r, stops r -> plus_or_stop (t_local o ++ r).
Proof. intros [l|] r H; simpl; [right; eauto|left; auto]. Qed.

Lemma pos_head : forall r c, plus_or_stop r -> is_alnum c || existsb (Ascii.eqb c) ["."; "-"; "_"; "!"]%char = true ->
  forall w, starts_with (c :: w) r = false.
Proof.
  intros r c [H|[r' ->]] Hc w.
  - destruct (stops_cases r H) as [->|(d & r' & -> & Hd)]; auto. simpl.
    rewrite (stop_neq c d Hd); auto. unfold cont. destruct (is_alnum c); auto. simpl in *.
    destruct (Ascii.eqb c "."), (Ascii.eqb c "-"), (Ascii.eqb c "_"), (Ascii.eqb c "+"); auto.
  - simpl. destruct (Ascii.eqb_spec c "+"); auto. subst. discriminate.
Qed.
Lemma pos_not_digit : forall r, plus_or_stop r -> head_not is_digit r.
Proof.
  intros r [H|[r' ->]]; [|reflexivity]. destruct (stops_cases r H) as [->|(d & r' & -> & Hd)]; [reflexivity|].
  apply cont_digit. exact Hd.
Qed.

Lemma skip_sep_pos : forall b r, plus_or_stop r -> skip_any separators (PS b r) = PS b r.
Proof.
  intros b r H. apply skip_any_fail. intros x Hx. simpl in Hx.
  destruct Hx as [<-|[<-|[<-|[]]]]; apply pos_head; auto.
Qed.
Lemma if_same : forall A (c : bool) (x : A), (if c then x else x) = x.
Proof. intros A []; reflexivity. Qed.

(** the dev stage, in the two modes: the dot before [dev] still there / already consumed *)
Lemma read_dev_none : forall b r, plus_or_stop r -> read_dev (PS b r) = (None, PS b r).
Proof.
  intros b r H. unfold read_dev. rewrite (skip_sep_pos b r H), if_same.
  rewrite pmatch_fail; auto. apply pos_head; auto.
Qed.
Lemma read_dev_A : forall n b r, dprev b -> plus_or_stop r ->
  exists b', read_dev (PS b (lit ".dev" ++ show_N n ++ r)) = (Some n, PS b' r) /\ dprev b'.
Proof.
  intros n b r Hb H. unfold read_dev. unfold peek_prev. cbn [prev]. unfold dprev in Hb. rewrite Hb.
  unfold skip_any, separators. cbn [match_any].
  change (lit ".dev" ++ show_N n ++ r) with (lit "." ++ (lit "dev" ++ (show_N n ++ r))).
  rewrite pmatch_app, pmatch_app, opt_number_show by (apply pos_not_digit; auto).
  eexists. split; [reflexivity|]. apply dprev_show.
Qed.
Lemma read_dev_B : forall n b r, plus_or_stop r ->
  exists b', read_dev (PS ("."%char :: b) (lit "dev" ++ show_N n ++ r)) = (Some n, PS b' r) /\ dprev b'.
Proof.
  intros n b r H. unfold read_dev, peek_prev. cbn [prev hd_error]. 
  change (opt_test is_digit (Some "."%char)) with false. cbn iota.
  rewrite pmatch_app, opt_number_show by (apply pos_not_digit; auto).
  eexists. split; [reflexivity|]. apply dprev_show.
Qed.

(** [after_post d r]: the text after the post stage *)
Lemma dprev_dash : forall b, dprev b -> opt_is "-"%char (hd_error b) = false.
Proof. intros b H. apply dprev_digit_not; auto. Qed.

Definition dev_text_ok (d : option N) (r : str) : str := t_dev d ++ r.

Lemma read_post_some_A : forall n b r, dprev b -> head_not is_digit r ->
  exists b', read_post (PS b (lit ".post" ++ show_N n ++ r)) = (Some n, PS b' r) /\ dprev b'.
Proof.
  intros n b r Hb H. unfold read_post, peek_prev. cbn [prev]. unfold dprev in Hb. rewrite Hb. cbn [orb].
  unfold skip_any at 1. unfold separators. cbn [match_any].
  change (lit ".post" ++ show_N n ++ r) with (lit "." ++ (lit "post" ++ (show_N n ++ r))).
  rewrite pmatch_app. cbn [match_any]. rewrite pmatch_app.
  rewrite skip_fail.
  - rewrite opt_number_show by auto. eexists. split; [reflexivity|]. apply dprev_show.
  - cbn [rest]. destruct (show_N_cons n) as (d & ds & -> & Hd & _). simpl. rewrite digit_neq; auto.
Qed.
Lemma read_post_some_B : forall n b r, head_not is_digit r ->
  exists b', read_post (PS ("."%char :: b) (lit "post" ++ show_N n ++ r)) = (Some n, PS b' r) /\ dprev b'.
Proof.
  intros n b r H. unfold read_post, peek_prev. cbn [prev hd_error].
  change (opt_test is_digit (Some "."%char) || opt_test is_pre_key_char (Some "."%char)) with false. cbn iota.
  cbn [match_any]. rewrite pmatch_app. rewrite skip_fail.
  - rewrite opt_number_show by auto. eexists. split; [reflexivity|]. apply dprev_show.
  - cbn [rest]. destruct (show_N_cons n) as (d & ds & -> & Hd & _). simpl. rewrite digit_neq; auto.
Qed.
(** no post part, a dev part follows *)
Lemma read_post_none_dev_A : forall b r, dprev b ->
  read_post (PS b (lit ".dev" ++ r)) = (None, PS ("."%char :: b) (lit "dev" ++ r)).
Proof.
  intros b r Hb. unfold read_post, peek_prev. cbn [prev]. unfold dprev in Hb. rewrite Hb. cbn [orb].
  unfold skip_any at 1. unfold separators. cbn [match_any].
  change (lit ".dev" ++ r) with (lit "." ++ (lit "dev" ++ r)). rewrite pmatch_app.
  cbn [match_any]. rewrite !pmatch_fail by reflexivity. reflexivity.
Qed.
Lemma read_post_none_dev_B : forall b r,
  read_post (PS ("."%char :: b) (lit "dev" ++ r)) = (None, PS ("."%char :: b) (lit "dev" ++ r)).
Proof.
  intros b r. unfold read_post, peek_prev. cbn [prev hd_error].
  change (opt_test is_digit (Some "."%char) || opt_test is_pre_key_char (Some "."%char)) with false. cbn iota.
  cbn [match_any]. rewrite !pmatch_fail by reflexivity. reflexivity.
Qed.
(** no post and no dev part *)
Lemma read_post_none : forall b r, dprev b -> plus_or_stop r -> read_post (PS b r) = (None, PS b r).
Proof.
  intros b r Hb H. unfold read_post. rewrite (skip_sep_pos b r H), if_same.
  cbn [match_any]. rewrite !pmatch_fail by (apply pos_head; auto).
  unfold peek_prev. cbn [prev]. rewrite (dprev_dash b Hb). reflexivity.
Qed.

(** post, dev and local stages together *)
Definition suffix (v : sv) (r : str) : str :=
  t_post (post_release v) ++ t_dev (dev_release v) ++ t_local (local_label v) ++ r.

Lemma tail_A : forall po de r b, dprev b -> plus_or_stop r ->
  exists b', (let '(p, s1) := read_post (PS b (t_post po ++ t_dev de ++ r)) in
              let '(d, s2) := read_dev s1 in (p, d, s2)) = (po, de, PS b' r) /\ dprev b'.
Proof.
  intros [po|] [de|] r b Hb Hr; cbn [t_post t_dev]; rewrite <- ?app_assoc; cbn [app].
  - destruct (read_post_some_A po b (lit ".dev" ++ show_N de ++ r) Hb eq_refl) as (b' & E & Hb').
    rewrite E. destruct (read_dev_A de b' r Hb' Hr) as (b2 & E2 & Hb2). rewrite E2. eauto.
  - destruct (read_post_some_A po b r Hb (pos_not_digit _ Hr)) as (b' & E & Hb').
    rewrite E. rewrite (read_dev_none b' r Hr). eauto.
  - rewrite read_post_none_dev_A by auto. destruct (read_dev_B de b r Hr) as (b' & E & Hb'). rewrite E. eauto.
  - rewrite read_post_none by auto. rewrite read_dev_none by auto. eauto.
Qed.

(** dropping the dot already consumed by the release loop *)
Definition undot (s : pstate) : pstate :=
  match rest s with
  | "."%char :: r => PS ("."%char :: prev s) r
  | _ => s
  end.
Lemma undot_pos : forall b r, plus_or_stop r -> undot (PS b r) = PS b r.
Proof.
  intros b r H. unfold undot. cbn [rest prev]. destruct r as [|c r]; auto.
  pose proof (pos_head (c :: r) "."%char H eq_refl []) as E. simpl in E. rewrite andb_true_r in E.
  destruct (Ascii.eqb_spec "." c) as [<-|n]; [discriminate|].
  destruct c as [[] [] [] [] [] [] [] []]; try reflexivity; contradiction n; reflexivity.
Qed.
Lemma tail_B : forall po de r b, dprev b -> plus_or_stop r ->
  exists b', (let '(p, s1) := read_post (undot (PS b (t_post po ++ t_dev de ++ r))) in
              let '(d, s2) := read_dev s1 in (p, d, s2)) = (po, de, PS b' r) /\ dprev b'.
Proof.
  intros [po|] [de|] r b Hb Hr; cbn [t_post t_dev]; rewrite <- ?app_assoc; cbn [app].
  - change (undot (PS b (lit ".post" ++ show_N po ++ lit ".dev" ++ show_N de ++ r)))
      with (PS ("."%char :: b) (lit "post" ++ show_N po ++ lit ".dev" ++ show_N de ++ r)).
    destruct (read_post_some_B po b (lit ".dev" ++ show_N de ++ r) eq_refl) as (b' & E & Hb').
    rewrite E. destruct (read_dev_A de b' r Hb' Hr) as (b2 & E2 & Hb2). rewrite E2. eauto.
  - change (undot (PS b (lit ".post" ++ show_N po ++ r)))
      with (PS ("."%char :: b) (lit "post" ++ show_N po ++ r)).
    destruct (read_post_some_B po b r (pos_not_digit _ Hr)) as (b' & E & Hb').
    rewrite E. rewrite (read_dev_none b' r Hr). eauto.
  - change (undot (PS b (lit ".dev" ++ show_N de ++ r)))
      with (PS ("."%char :: b) (lit "dev" ++ show_N de ++ r)).
    rewrite read_post_none_dev_B by auto. destruct (read_dev_B de b r Hr) as (b' & E & Hb'). rewrite E. eauto.
  - rewrite undot_pos by auto. rewrite read_post_none by auto. rewrite read_dev_none by auto. eauto.
Qed.

(** the release loop *)
Lemma read_release_stop : forall fuel b r, 
  starts_with (lit ".") r = false -> read_release fuel (PS b r) = ([], PS b r).
Proof. intros [|f] b r H; simpl; rewrite pmatch_fail; auto. Qed.
Lemma read_release_dot : forall fuel b c r, is_digit c = false ->
  read_release fuel (PS b ("."%char :: c :: r)) = ([], PS ("."%char :: b) (c :: r)).
Proof.
  intros fuel b c r H. destruct fuel; cbn [read_release]; change ("."%char :: c :: r) with (lit "." ++ c :: r);
  rewrite pmatch_app; unfold peek; cbn [rest hd_error opt_test]; rewrite H; reflexivity.
Qed.
Lemma read_release_ok : forall ns fuel b r, length ns <= fuel -> dprev b ->
  (forall w, starts_with ("."%char :: w) r = false) \/ (exists c r', r = "."%char :: c :: r' /\ is_digit c = false) ->
  head_not is_digit r ->
  exists b', read_release fuel (PS b (t_rel ns ++ r)) = (ns, undot (PS b' r)) /\ dprev b'.
Proof.
  induction ns as [|n ns IH]; intros fuel b r Hf Hb Hr Hd.
  - exists b. split; auto. cbn [t_rel concat map app]. destruct Hr as [Hr|(c & r' & -> & Hc)].
    + rewrite read_release_stop by apply (Hr []). f_equal.
      unfold undot. cbn [rest prev]. destruct r as [|c r]; auto. specialize (Hr []). simpl in Hr. rewrite andb_true_r in Hr.
      destruct (Ascii.eqb_spec "." c) as [<-|nn]; [discriminate|].
      destruct c as [[] [] [] [] [] [] [] []]; try reflexivity; contradiction nn; reflexivity.
    + rewrite read_release_dot by auto. reflexivity.
  - destruct fuel as [|f]; [simpl in Hf; lia|].
    unfold t_rel. cbn [map concat]. fold (t_rel ns). cbn [read_release].
    change (("."%char :: show_N n) ++ t_rel ns) with (lit "." ++ (show_N n ++ t_rel ns)).
    rewrite <- !app_assoc. rewrite pmatch_app.
    assert (P : opt_test is_digit (peek (PS (rev (lit ".") ++ b) (show_N n ++ t_rel ns ++ r))) = true).
    { unfold peek. cbn [rest]. destruct (show_N_cons n) as (d & ds & -> & Hd' & _). exact Hd'. }
    rewrite P.
    assert (HD : head_not is_digit (t_rel ns ++ r)).
    { destruct ns; [exact Hd|]. reflexivity. }
    rewrite (take_while_app is_digit _ _ _ (show_N_digits n) HD).
    destruct (IH f (rev (show_N n) ++ rev (lit ".") ++ b) r ltac:(simpl in Hf; lia) (dprev_show _ _) Hr Hd) as (b' & E & Hb').
    rewrite E. exists b'. rewrite read_show_N. auto.
Qed.

(** the pre-release stage *)
Lemma read_pre_some : forall t n b r, In t pre_types -> head_not is_digit r ->
  exists b', read_pre (PS b (t ++ show_N n ++ r)) = (Some (t, n), PS b' r) /\ dprev b'.
Proof.
  intros t n b r Ht Hr. unfold read_pre.
  assert (SK : forall b0, skip_any separators (PS b0 (show_N n ++ r)) = PS b0 (show_N n ++ r)).
  { intro b0. apply skip_any_fail. cbn [rest]. destruct (show_N_cons n) as (d & ds & -> & Hd & _).
    intros x Hx. simpl in Hx. destruct Hx as [<-|[<-|[<-|[]]]]; simpl; rewrite digit_neq; auto. }
  assert (M : match_any pre_keys (PS b (t ++ show_N n ++ r)) = Some (t, PS (rev t ++ b) (show_N n ++ r))).
  { destruct Ht as [<-|[<-|[<-|[]]]]; unfold pre_keys, pre_normalizer; cbn [map fst match_any].
    - rewrite pmatch_app. reflexivity.
    - rewrite (pmatch_fail (lit "a")) by reflexivity. rewrite pmatch_app. reflexivity.
    - rewrite (pmatch_fail (lit "a")), (pmatch_fail (lit "b")) by reflexivity. rewrite pmatch_app. reflexivity. }
  rewrite M, SK, opt_number_show by auto. 
  exists (rev (show_N n) ++ rev t ++ b). split; [|apply dprev_show].
  destruct Ht as [<-|[<-|[<-|[]]]]; reflexivity.
Qed.
Lemma read_pre_none_gen : forall s, (forall x, In x pre_keys -> starts_with x (rest s) = false) -> read_pre s = (None, s).
Proof. intros s H. unfold read_pre. rewrite match_any_fail; auto. Qed.

Lemma pre_keys_pos : forall r, plus_or_stop r -> forall x, In x pre_keys -> starts_with x r = false.
Proof.
  intros r H x Hx. simpl in Hx. repeat (destruct Hx as [<-|Hx]; [apply pos_head; auto|]). contradiction.
Qed.
Lemma read_pre_none_undot : forall po de r b, plus_or_stop r ->
  read_pre (undot (PS b (t_post po ++ t_dev de ++ r))) = (None, undot (PS b (t_post po ++ t_dev de ++ r))).
Proof.
  intros po de r b Hr. apply read_pre_none_gen.
  destruct po as [po|]; [|destruct de as [de|]]; cbn [t_post t_dev]; rewrite <- ?app_assoc; cbn [app].
  - intros x Hx. simpl in Hx. repeat (destruct Hx as [<-|Hx]; [reflexivity|]). contradiction.
  - intros x Hx. simpl in Hx. repeat (destruct Hx as [<-|Hx]; [reflexivity|]). contradiction.
  - rewrite undot_pos by auto. apply pre_keys_pos. exact Hr.
Qed.

(** all the stages after the wrapping prefix *)
Definition body (v : sv) : str :=
  t_pre (pre_release v) ++ t_post (post_release v) ++ t_dev (dev_release v).

Lemma rel_follow : forall pr po de r, plus_or_stop r -> (forall t n, pr = Some (t, n) -> In t pre_types) ->
  let T := t_pre pr ++ t_post po ++ t_dev de ++ r in
  ((forall w, starts_with ("."%char :: w) T = false) \/ (exists c r', T = "."%char :: c :: r' /\ is_digit c = false))
  /\ head_not is_digit T.
Proof.
  intros pr po de r Hr Hp T. unfold T. clear T. destruct pr as [[t n]|].
  - specialize (Hp t n eq_refl). destruct Hp as [<-|[<-|[<-|[]]]]; cbn [t_pre]; split; try reflexivity; left; reflexivity.
  - cbn [t_pre app]. destruct po as [po|]; [|destruct de as [de|]]; cbn [t_post t_dev app].
    + split; [|reflexivity]. right. do 2 eexists. split; reflexivity.
    + split; [|reflexivity]. right. do 2 eexists. split; reflexivity.
    + split; [|apply pos_not_digit; auto]. left. intro w. apply pos_head; auto.
Qed.

Lemma stages_ok : forall pr po de lo r b, dprev b -> stops r -> (forall t n, pr = Some (t, n) -> In t pre_types) ->
  (forall l, lo = Some l -> forallb label_char_ok l = true) ->
  exists b', dprev b' /\
  (let '(pre, s6) := read_pre (undot (PS b (t_pre pr ++ t_post po ++ t_dev de ++ t_local lo ++ r))) in
   let '(post, s7) := read_post s6 in
   let '(dev, s8) := read_dev s7 in
   let '(loc, s9) := read_local s8 in
   (pre, post, dev, loc, s9)) = (pr, po, de, lo, PS (match lo with Some l => rev l ++ ["+"%char] ++ b' | None => b' end) r).
Proof.
  intros pr po de lo r b Hb Hr Hp Hl.
  assert (HR : plus_or_stop (t_local lo ++ r)) by (apply plus_or_stop_local; auto).
  assert (G : exists b', dprev b' /\
     (let '(pre, s6) := read_pre (undot (PS b (t_pre pr ++ t_post po ++ t_dev de ++ t_local lo ++ r))) in
      let '(post, s7) := read_post s6 in
      let '(dev, s8) := read_dev s7 in (pre, post, dev, s8)) = (pr, po, de, PS b' (t_local lo ++ r))).
  { destruct pr as [[t n]|].
    - assert (U : undot (PS b (t_pre (Some (t, n)) ++ t_post po ++ t_dev de ++ t_local lo ++ r))
                  = PS b (t ++ show_N n ++ (t_post po ++ t_dev de ++ t_local lo ++ r))).
      { cbn [t_pre]. rewrite <- app_assoc. specialize (Hp t n eq_refl). destruct Hp as [<-|[<-|[<-|[]]]]; reflexivity. }
      rewrite U.
      assert (HD : head_not is_digit (t_post po ++ t_dev de ++ t_local lo ++ r)).
      { destruct po; [reflexivity|]. destruct de; [reflexivity|]. apply pos_not_digit. exact HR. }
      destruct (read_pre_some t n b _ (Hp t n eq_refl) HD) as (b1 & E1 & Hb1). rewrite E1.
      destruct (tail_A po de _ b1 Hb1 HR) as (b2 & E2 & Hb2). exists b2. split; auto.
      destruct (read_post (PS b1 (t_post po ++ t_dev de ++ t_local lo ++ r))) as [p s1].
      destruct (read_dev s1) as [d s2]. injection E2 as -> -> ->. reflexivity.
    - cbn [t_pre app]. rewrite read_pre_none_undot by auto.
      destruct (tail_B po de _ b Hb HR) as (b2 & E2 & Hb2). exists b2. split; auto.
      destruct (read_post (undot (PS b (t_post po ++ t_dev de ++ t_local lo ++ r)))) as [p s1].
      destruct (read_dev s1) as [d s2]. injection E2 as -> -> ->. reflexivity. }
  destruct G as (b' & Hb' & E). exists b'. split; auto.
  destruct (read_pre _) as [pre s6]. destruct (read_post s6) as [post s7]. destruct (read_dev s7) as [dev s8].
  injection E as -> -> -> ->.
  destruct (read_local_ok lo b' r Hl Hr) as (b2 & E2 & ->). rewrite E2. reflexivity.
Qed.

(** ** The round trip *)
(** where the parser ends after reading [sv_str v] followed by [r] *)
Definition ends_with_dot (v : sv) : bool :=
  match local_label v with Some l => opt_is "."%char (hd_error (rev l)) | None => false end.
Definition left_over (v : sv) (r : str) : str :=
  if ends_with_dot v then "."%char :: r else rest (match_ws true (PS [] r)).

Lemma match_ws_rest : forall b r, rest (match_ws true (PS b r)) = rest (match_ws true (PS [] r)).
Proof.
  intros b r. unfold match_ws, take_while. cbn [rest].
  destruct (span _ r). reflexivity.
Qed.
Lemma match_ws_PS : forall b r, match_ws true (PS b r) = PS (prev (match_ws true (PS b r))) (rest (match_ws true (PS [] r))).
Proof. intros b r. rewrite <- (match_ws_rest b r). destruct (match_ws true (PS b r)); reflexivity. Qed.
Lemma span_idem : forall f l, span f (snd (span f l)) = ([], snd (span f l)).
Proof.
  intros f l. induction l as [|c l IH]; simpl; auto. destruct (f c) eqn:E.
  - destruct (span f l) as [a b]. simpl in *. exact IH.
  - simpl. rewrite E. reflexivity.
Qed.
Lemma match_ws_idem : forall s, match_ws true (match_ws true s) = match_ws true s.
Proof.
  intros [b r]. unfold match_ws, take_while. cbn [rest prev].
  pose proof (span_idem (fun c => if Ascii.eqb c "010" && negb true then false else is_space c) r) as H.
  destruct (span _ r) as [a r']. simpl in *. rewrite H. reflexivity.
Qed.
Lemma match_ws_nospace : forall b c r, is_space c = false -> match_ws true (PS b (c :: r)) = PS b (c :: r).
Proof.
  intros b c r H. unfold match_ws. rewrite take_while_none; auto. unfold head_not. simpl. rewrite andb_false_r. exact H.
Qed.

Lemma digit_not_space : forall d, is_digit d = true -> is_space d = false.
Proof. intros [[] [] [] [] [] [] [] []]; intro H; try reflexivity; discriminate. Qed.

Lemma sv_str_eq : forall v n ns, release v = n :: ns ->
  sv_str v = match epoch v with Some e => show_N e ++ lit "!" | None => [] end
    ++ show_N n ++ t_rel ns ++ t_pre (pre_release v) ++ t_post (post_release v) ++ t_dev (dev_release v) ++ t_local (local_label v).
Proof.
  intros v n ns H. unfold sv_str. rewrite H, join_t_rel.
  rewrite <- app_assoc. reflexivity.
Qed.

Lemma epoch_release_ok : forall e n ns T b,
  ((forall w, starts_with ("."%char :: w) T = false) \/ (exists c r', T = "."%char :: c :: r' /\ is_digit c = false)) ->
  head_not is_digit T -> starts_with (lit "!") T = false ->
  exists b', read_epoch_release (PS b (match e with Some x => show_N x ++ lit "!" | None => [] end ++ show_N n ++ t_rel ns ++ T))
    = Ok (e, n :: ns, undot (PS b' T)) /\ dprev b'.
Proof.
  intros e n ns T b HT HD HB.
  assert (HD2 : head_not is_digit (t_rel ns ++ T)) by (destruct ns; [exact HD|reflexivity]).
  assert (LEN : length ns <= length (t_rel ns ++ T)).
  { rewrite app_length. clear. induction ns; simpl; [lia|]. unfold t_rel in *. simpl. rewrite app_length. lia. }
  destruct e as [x|].
  - rewrite <- app_assoc. unfold read_epoch_release.
    rewrite (read_digits_show x) by reflexivity. cbn [bind]. rewrite pmatch_app.
    rewrite (read_digits_show n) by auto. cbn [bind rest].
    destruct (read_release_ok ns _ (rev (show_N n) ++ rev (lit "!") ++ rev (show_N x) ++ b) T LEN (dprev_show _ _) HT HD) as (b' & E & Hb').
    rewrite E, !read_show_N. eauto.
  - cbn [app]. unfold read_epoch_release. rewrite (read_digits_show n) by auto. cbn [bind].
    assert (NB : starts_with (lit "!") (t_rel ns ++ T) = false) by (destruct ns; [exact HB|reflexivity]).
    rewrite pmatch_fail by exact NB. cbn [rest].
    destruct (read_release_ok ns _ (rev (show_N n) ++ b) T LEN (dprev_show _ _) HT HD) as (b' & E & Hb').
    rewrite E, !read_show_N. eauto.
Qed.

Lemma starts_with_digit : forall x d l, is_digit d = true -> is_digit x = false -> starts_with [x] (d :: l) = false.
Proof. intros x d l H1 H2. simpl. rewrite digit_neq; auto. Qed.

Theorem read_version_str : forall v b r, wf_sv v -> label_wf v -> stops r ->
  exists b', read_version (PS b (sv_str v ++ r)) = Ok (v, PS b' (left_over v r)).
Proof.
  intros v b r [Hrel Hpre] Hlab Hr. destruct (release v) as [|n ns] eqn:ER; [contradiction|].
  rewrite (sv_str_eq v n ns ER). rewrite <- !app_assoc.
  set (T := t_pre (pre_release v) ++ t_post (post_release v) ++ t_dev (dev_release v) ++ t_local (local_label v) ++ r).
  set (E := match epoch v with Some e => show_N e ++ lit "!" | None => [] end).
  assert (HP : plus_or_stop (t_local (local_label v) ++ r)) by (apply plus_or_stop_local; auto).
  destruct (rel_follow (pre_release v) (post_release v) (dev_release v) _ HP Hpre) as [HT HD]. fold T in HT, HD.
  assert (HB : starts_with (lit "!") T = false).
  { unfold T. destruct (pre_release v) as [[t m]|] eqn:Epr.
    - specialize (Hpre t m eq_refl). destruct Hpre as [<-|[<-|[<-|[]]]]; reflexivity.
    - destruct (post_release v); [reflexivity|]. destruct (dev_release v); [reflexivity|]. cbn [t_pre t_post t_dev app].
      apply pos_head; auto. }
  assert (HH : exists d l, E ++ show_N n ++ t_rel ns ++ T = d :: l /\ is_digit d = true).
  { unfold E. destruct (epoch v) as [e|].
    - destruct (show_N_cons e) as (d & ds & -> & Hd & _). simpl. eauto.
    - destruct (show_N_cons n) as (d & ds & -> & Hd & _). simpl. eauto. }
  unfold read_version.
  assert (W : match_ws true (PS b (E ++ show_N n ++ t_rel ns ++ T)) = PS b (E ++ show_N n ++ t_rel ns ++ T)).
  { destruct HH as (d & l & -> & Hd). apply match_ws_nospace. apply digit_not_space. exact Hd. }
  rewrite W. unfold pmatch_ws.
  assert (NM : forall x, is_digit x = false -> pmatch [x] (PS b (E ++ show_N n ++ t_rel ns ++ T)) = None).
  { intros x Hx. apply pmatch_fail. cbn [rest]. destruct HH as (d & l & -> & Hd). apply starts_with_digit; auto. }
  change (lit "(") with ["("%char]. change (lit "'") with ["'"%char]. change (lit """") with [""""%char].
  rewrite !NM by reflexivity.
  unfold skip at 1. change (lit "v") with ["v"%char]. rewrite NM by reflexivity.
  destruct (epoch_release_ok (epoch v) n ns T b HT HD HB) as (b1 & E1 & Hb1). fold E in E1. rewrite E1. cbn [bind].
  destruct (stages_ok (pre_release v) (post_release v) (dev_release v) (local_label v) r b1 Hb1 Hr Hpre Hlab) as (b2 & Hb2 & E2).
  fold T in E2.
  destruct (read_pre (undot (PS b1 T))) as [pre s6]. destruct (read_post s6) as [post s7].
  destruct (read_dev s7) as [dev s8]. destruct (read_local s8) as [loc s9].
  injection E2 as -> -> -> -> ->. cbn [bind].
  assert (ESV : SV (n :: ns) (epoch v) (pre_release v) (post_release v) (dev_release v) (local_label v) = v).
  { rewrite <- ER. destruct v; reflexivity. }
  rewrite ESV. unfold left_over, ends_with_dot, peek_prev. cbn [prev].
  destruct (local_label v) as [l|] eqn:EL.
  - destruct (rev l) as [|c l'] eqn:EV.
    + cbn [app hd_error]. change (opt_is "."%char (Some "+"%char)) with false. cbn iota. cbn [opt_is opt_test hd_error].
      rewrite match_ws_idem. eexists. rewrite match_ws_PS. reflexivity.
    + cbn [app hd_error]. destruct (opt_is "."%char (Some c)) eqn:EC.
      * unfold opt_is, opt_test in EC. apply Ascii.eqb_eq in EC. subst c. unfold back1. cbn [prev rest].
        rewrite !match_ws_nospace by reflexivity. eauto.
      * rewrite match_ws_idem. eexists. rewrite match_ws_PS. reflexivity.
  - assert (ND : opt_is "."%char (hd_error b2) = false) by (apply dprev_digit_not; auto). rewrite ND.
    rewrite match_ws_idem. eexists. rewrite match_ws_PS. reflexivity.
Qed.
