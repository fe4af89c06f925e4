(** C39: dotted keys.  C64: loading and saving a configuration. *)
From Coq Require Import String Ascii List Bool NArith ZArith Arith Lia.
From Verif Require Import Base BaseFacts ConfigModel ConfigProofs.
Import ListNotations.
Open Scope list_scope.

(** C39, writing: the value is there afterwards, and no path beside the written one changes *)
Theorem C39_write_read : forall c key v c', shove_key c key v = Ok c' -> get c' (split_on "." key) = Some v.
Proof. intros c key v c' H. rewrite <- key_parts_eq. eapply shove_get, H. Qed.
Theorem C39_write_others : forall c key v c' q, shove_key c key v = Ok c' ->
  ~ prefix (split_on "." key) q -> ~ prefix q (split_on "." key) -> get c' q = get c q.
Proof. intros c key v c' q H. rewrite <- key_parts_eq. apply (shove_other _ _ _ _ _ _ H). Qed.
(** above the written path, missing tables are made; only a value that counts as false may be lost *)
Theorem C39_write_above_partial : forall c key v c' q r w, shove_key c key v = Ok c' ->
  q <> [] -> r <> [] -> split_on "." key = q ++ r -> get c q = Some w -> truthy w = true -> exists t t', w = VTab t /\ get c' q = Some (VTab t').
Proof.
  intros c key v c' q r w H Nq Nr E G T. rewrite <- key_parts_eq in E.
  destruct (shove_above _ _ _ _ _ _ _ H Nq Nr E) as [X [t' Y]]. rewrite G in X. destruct X as [X|X]; [congruence|].
  destruct w; try discriminate. eauto.
Qed.
Theorem C39_write_fails_iff : forall c key v, (exists c', shove_key c key v = Ok c') <-> ~ blocked c (split_on "." key).
Proof. intros c key v. rewrite <- key_parts_eq. apply shove_ok_iff. Qed.
(** popping: the value that is there comes back (None when there is none), it is gone afterwards, no path beside it changes and
    the tables above it stay *)
Theorem C39_pop : forall c key v c', pop_key c key = Ok (v, c') ->
  v = match get c (split_on "." key) with Some w => w | None => VNull end /\
  get c' (split_on "." key) = None /\
  (forall q, ~ prefix (split_on "." key) q -> ~ prefix q (split_on "." key) -> get c' q = get c q) /\
  (forall q r, q <> [] -> r <> [] -> split_on "." key = q ++ r ->
     get c' q = get c q \/ exists t t', get c q = Some (VTab t) /\ get c' q = Some (VTab t')).
Proof.
  intros c key v c' H. rewrite <- key_parts_eq. split; [exact (pop_value _ _ _ _ _ H)|]. split; [exact (pop_gone _ _ _ _ _ H)|].
  split; [intro q; apply (pop_other _ _ _ _ _ _ H)|intros q r; apply (pop_above _ _ _ _ _ _ _ H)].
Qed.
Theorem C39_pop_fails_iff : forall c key, (exists r, pop_key c key = Ok r) <-> ~ blocked c (split_on "." key).
Proof. intros c key. rewrite <- key_parts_eq. apply pop_ok_iff. Qed.
(** writing and popping *)
Theorem C39_write_pop : forall c key v c', shove_key c key v = Ok c' -> exists c2, pop_key c' key = Ok (v, c2).
Proof.
  intros c key v c' H. assert (G := shove_get _ _ _ _ _ H). assert (X : exists r, pop_key c' key = Ok r).
  { apply C39_pop_fails_iff. rewrite <- key_parts_eq. intros (q & r & w & Nq & Nr & E & Gq & T & I).
    destruct (shove_above _ _ _ _ _ _ _ H Nq Nr E) as [_ [t Y]]. rewrite Gq in Y. injection Y as ->. discriminate. }
  destruct X as [[w c2] X]. exists c2. rewrite X. f_equal. f_equal. unfold pop_key in X. rewrite (pop_value _ _ _ _ _ X), G. reflexivity.
Qed.
Example C39_witness : exists c', shove_key [(lit "a", VTab [(lit "x", VInt 1)])] "a.b.c" (VStr "v") = Ok c' /\
  get c' [lit "a"; lit "x"] = Some (VInt 1) /\ get c' [lit "a"; lit "b"; lit "c"] = Some (VStr "v").
Proof. eexists. split; [vm_compute; reflexivity|]. vm_compute. split; reflexivity. Qed.
(** REFUTED: writing below a value that counts as false replaces it *)
Theorem C39_false_value_refuted : exists c c', get c [lit "a"] = Some (VInt 0) /\ shove_key c "a.b" (VInt 1) = Ok c' /\ get c' [lit "a"] = Some (VTab [(lit "b", VInt 1)]).
Proof. exists [(lit "a", VInt 0)]. eexists. split; [reflexivity|]. split; vm_compute; reflexivity. Qed.

(** ** C64 *)
Section Simple.
  Variable O : Type.
  (** a schema without dotted keys and without repetitions *)
  Definition simple (schema : list (field O)) : Prop :=
    (forall s, In s schema -> ~ In "."%char (key_of s)) /\ NoDup (map f_name schema) /\
    NoDup (map key_of (filter (fun s => negb (f_leftover s)) schema)).
  Definition field_value (s : field O) (c : table) : option O :=
    match dict_get_or_none (key_of s) c with
    | VNull => f_default s
    | _ => match f_parse s (dict_get_or_none (key_of s) c) with Ok o => Some o | Err _ => None end
    end.
  Definition is_key (schema : list (field O)) (k : str) : Prop := exists s, In s schema /\ f_leftover s = false /\ key_of s = k.

  Lemma pop_simple : forall c k, ~ In "."%char k -> pop_key c k = Ok (dict_get_or_none k c, dict_without k c).
  Proof. intros c k H. unfold pop_key. rewrite key_parts_simple by exact H. reflexivity. Qed.
  Lemma shove_simple : forall c k v, ~ In "."%char k -> shove_key c k v = Ok (dict_set k v c).
  Proof. intros c k v H. unfold shove_key. rewrite key_parts_simple by exact H. reflexivity. Qed.
  Lemma without_keys : forall k c, NoDup (map fst c) -> NoDup (map fst (dict_without k c)).
  Proof.
    intros k c. induction c as [|[k' v] c IH]; intro N; [constructor|]. inversion N as [|? ? N1 N2]; subst. unfold dict_without. cbn [filter fst].
    destruct (str_eqb k' k); cbn [negb]; [apply IH, N2|]. cbn [map fst]. constructor; [|apply IH, N2]. intro X. apply N1.
    apply in_map_iff in X. destruct X as (e & E & X). apply filter_In in X. apply in_map_iff. exists e. tauto.
  Qed.

  Lemma parse_simple : forall schema c obj c', simple schema -> NoDup (map fst c) -> parse_fields schema c = Ok (obj, c') ->
    map fst obj = map f_name schema /\ NoDup (map fst c') /\
    (forall k, is_key schema k -> dict_get k c' = None) /\ (forall k, ~ is_key schema k -> dict_get k c' = dict_get k c) /\
    (forall s, In s schema -> dict_get (f_name s) obj = Some (if f_leftover s then Rest else Value (field_value s c))).
  Proof.
    induction schema as [|s schema IH]; intros c obj c' (S1 & S2 & S3) N H; cbn [parse_fields] in H.
    - injection H as <- <-. split; [reflexivity|]. split; [exact N|]. split; [intros k (s & [] & _)|]. split; [reflexivity|]. intros s [].
    - assert (Simp : simple schema).
      { split; [intros x Hx; apply S1; right; exact Hx|]. split; [inversion S2; assumption|]. cbn [filter] in S3. destruct (f_leftover s); [exact S3|].
        cbn [negb map] in S3. inversion S3; assumption. }
      assert (Names : ~ In (f_name s) (map f_name schema)) by (cbn [map] in S2; inversion S2; assumption).
      assert (NK : forall x, In x schema -> f_name x <> f_name s). { intros x Hx E. apply Names. rewrite <- E. apply in_map, Hx. }
      destruct (f_leftover s) eqn:L.
      + destruct (parse_fields schema c) as [[obj1 c1]|] eqn:P; [|discriminate]. injection H as <- <-.
        destruct (IH c obj1 c1 Simp N P) as (A & B & C & D & E). cbn [fst snd map]. split; [f_equal; exact A|]. split; [exact B|]. split; [|split].
        * intros k (x & [<-|Hx] & Lx & K); [congruence|]. apply C. exists x. auto.
        * intros k X. apply D. intros (x & Hx & Lx & K). apply X. exists x. split; [right; exact Hx|auto].
        * intros x [<-|Hx]; cbn [dict_get].
          -- rewrite str_eqb_refl, L. reflexivity.
          -- rewrite (proj2 (str_eqb_neq _ _) (NK x Hx)). apply E, Hx.
      + rewrite pop_simple in H by (apply S1; left; reflexivity). cbn [bind fst snd] in H.
        set (w := dict_get_or_none (key_of s) c) in *.
        assert (V : exists v, parse_value s w = Ok v /\ v = field_value s c).
        { destruct (parse_value s w) as [v|] eqn:PV; [|discriminate]. exists v. split; [reflexivity|]. unfold field_value. fold w.
          unfold parse_value in PV. destruct w; [destruct (f_required s); congruence|..];
            match type of PV with context [f_parse s ?x] => destruct (f_parse s x); congruence end. }
        destruct V as (v & V & Ev). rewrite V in H. cbn [bind] in H.
        destruct (parse_fields schema (dict_without (key_of s) c)) as [[obj1 c1]|] eqn:P; [|discriminate]. injection H as <- <-.
        destruct (IH _ obj1 c1 Simp (without_keys _ _ N) P) as (A & B & C & D & E). cbn [fst snd map]. split; [f_equal; exact A|]. split; [exact B|].
        assert (KK : forall x, In x schema -> f_leftover x = false -> key_of x <> key_of s).
        { intros x Hx Lx X. cbn [filter] in S3. rewrite L in S3. cbn [negb map] in S3. inversion S3 as [|? ? M _]; subst. apply M. rewrite <- X.
          apply in_map. apply filter_In. split; [exact Hx|rewrite Lx; reflexivity]. }
        split; [|split].
        * intros k (x & [<-|Hx] & Lx & K).
          -- subst k. rewrite D; [rewrite dict_get_without, str_eqb_refl; reflexivity|]. intros (y & Hy & Ly & Ky). exact (KK y Hy Ly Ky).
          -- apply C. exists x. auto.
        * intros k X. rewrite D.
          -- rewrite dict_get_without. destruct (str_eqb k (key_of s)) eqn:Q; [|reflexivity]. apply str_eqb_eq in Q. exfalso. apply X. exists s. split; [left; reflexivity|auto].
          -- intros (x & Hx & Lx & K). apply X. exists x. split; [right; exact Hx|auto].
        * intros x [<-|Hx]; cbn [dict_get].
          -- rewrite str_eqb_refl, L, Ev. reflexivity.
          -- rewrite (proj2 (str_eqb_neq _ _) (NK x Hx)), (E x Hx). destruct (f_leftover x) eqn:Lx; [reflexivity|].
             f_equal. f_equal. unfold field_value, dict_get_or_none. rewrite dict_get_without.
             rewrite (proj2 (str_eqb_neq _ _) (KK x Hx Lx)). reflexivity.
  Qed.
  Lemma update_get : forall u t k, NoDup (map fst u) -> dict_get k (dict_update t u) = match dict_get k u with Some v => Some v | None => dict_get k t end.
  Proof.
    unfold dict_update. induction u as [|[k' v] u IH]; intros t k N; [reflexivity|]. inversion N as [|? ? N1 N2]; subst. cbn [fold_left fst snd].
    rewrite IH by exact N2. cbn [dict_get]. rewrite dict_get_set. destruct (str_eqb k k') eqn:E; [|reflexivity]. apply str_eqb_eq in E. subst k'.
    cbn [fst] in N1. apply dict_get_none in N1. rewrite N1. reflexivity.
  Qed.
  Lemma unparse_simple : forall schema obj left_ t0 t, simple schema -> NoDup (map fst left_) ->
    (forall s, In s schema -> exists o, dict_get (f_name s) obj = Some (if f_leftover s then Rest else Value o)) ->
    (forall k, is_key schema k -> dict_get k left_ = None) ->
    unparse_fields schema obj left_ t0 = Ok t ->
    (forall s, In s schema -> f_leftover s = false ->
       match dict_get (f_name s) obj with
       | Some (Value (Some o)) => exists v, f_unparse s o = Ok v /\ dict_get (key_of s) t = Some v
       | _ => dict_get (key_of s) t = dict_get (key_of s) t0
       end) /\
    (forall k, ~ is_key schema k -> dict_get k t =
       match (if existsb f_leftover schema then dict_get k left_ else None) with Some v => Some v | None => dict_get k t0 end).
  Proof.
    induction schema as [|s schema IH]; intros obj left_ t0 t (S1 & S2 & S3) N Ob Lk H; cbn [unparse_fields] in H.
    - injection H as <-. split; [intros s []|reflexivity].
    - assert (Simp : simple schema).
      { split; [intros x Hx; apply S1; right; exact Hx|]. split; [inversion S2; assumption|]. cbn [filter] in S3. destruct (f_leftover s); [exact S3|].
        cbn [negb map] in S3. inversion S3; assumption. }
      assert (Ob' : forall x, In x schema -> exists o, dict_get (f_name x) obj = Some (if f_leftover x then Rest else Value o)) by (intros x Hx; apply Ob; right; exact Hx).
      assert (Lk' : forall k, is_key schema k -> dict_get k left_ = None).
      { intros k (x & Hx & Lx & K). apply Lk. exists x. split; [right; exact Hx|auto]. }
      assert (KK : f_leftover s = false -> forall x, In x schema -> f_leftover x = false -> key_of x <> key_of s).
      { intros L x Hx Lx X. cbn [filter] in S3. rewrite L in S3. cbn [negb map] in S3. inversion S3 as [|? ? M _]; subst. apply M. rewrite <- X.
        apply in_map. apply filter_In. split; [exact Hx|rewrite Lx; reflexivity]. }
      destruct (Ob s (or_introl eq_refl)) as [o Eo]. rewrite Eo in H. cbn [existsb]. destruct (f_leftover s) eqn:L.
      + destruct (IH obj left_ _ t Simp N Ob' Lk' H) as [A B]. split.
        * intros x [<-|Hx] Lx; [congruence|]. specialize (A x Hx Lx). destruct (dict_get (f_name x) obj) as [[[y|]|]|]; try exact A;
            rewrite A, update_get, (Lk' (key_of x)) by (exact N || (exists x; auto)); reflexivity.
        * intros k X. assert (X' : ~ is_key schema k). { intros (x & Hx & Lx & K). apply X. exists x. split; [right; exact Hx|auto]. }
          rewrite (B k X'), update_get by exact N. cbn [orb]. destruct (dict_get k left_); destruct (existsb f_leftover schema); reflexivity.
      + destruct o as [o|].
        * destruct (f_unparse s o) as [v|] eqn:U; [|discriminate]. rewrite shove_simple in H by (apply S1; left; reflexivity). cbn [bind] in H.
          destruct (IH obj left_ _ t Simp N Ob' Lk' H) as [A B]. split.
          -- intros x [<-|Hx] Lx.
             ++ rewrite Eo. exists v. split; [exact U|]. rewrite B.
                ** rewrite (Lk (key_of s)) by (exists s; split; [left; reflexivity|auto]). rewrite dict_get_set_same. destruct (existsb f_leftover schema); reflexivity.
                ** intros (x & Hx & Lx' & K). exact (KK eq_refl x Hx Lx' K).
             ++ specialize (A x Hx Lx). destruct (dict_get (f_name x) obj) as [[[y|]|]|]; try exact A;
                rewrite A; apply dict_get_set_other, (KK eq_refl x Hx Lx).
          -- intros k X. assert (X' : ~ is_key schema k). { intros (x & Hx & Lx & K). apply X. exists x. split; [right; exact Hx|auto]. }
             rewrite (B k X'). cbn [orb]. rewrite dict_get_set_other; [reflexivity|]. intros ->. apply X. exists s. split; [left; reflexivity|auto].
        * destruct (IH obj left_ _ t Simp N Ob' Lk' H) as [A B]. split.
          -- intros x [<-|Hx] Lx; [|apply A; assumption]. rewrite Eo. rewrite B.
             ++ rewrite (Lk (key_of s)) by (exists s; split; [left; reflexivity|auto]). destruct (existsb f_leftover schema); reflexivity.
             ++ intros (x & Hx & Lx' & K). exact (KK eq_refl x Hx Lx' K).
          -- intros k X. assert (X' : ~ is_key schema k). { intros (x & Hx & Lx & K). apply X. exists x. split; [right; exact Hx|auto]. }
             exact (B k X').
  Qed.
End Simple.
Arguments simple {O}. Arguments is_key {O}. Arguments field_value {O}.

(** C64 for configuration classes without dotted keys: what is not known to the class is kept when the class has a leftover
    field; a known setting is written as its codec writes what it read, a missing one as its default. *)
Theorem C64_load_save_partial : forall O (schema : list (field O)) c t, simple schema -> NoDup (map fst c) -> load_save schema c = Ok t ->
  (forall k, ~ is_key schema k -> existsb f_leftover schema = true -> dict_get k t = dict_get k c) /\
  (forall s w, In s schema -> f_leftover s = false -> dict_get (key_of s) c = Some w -> w <> VNull ->
     exists o v, f_parse s w = Ok o /\ f_unparse s o = Ok v /\ dict_get (key_of s) t = Some v) /\
  (forall s, In s schema -> f_leftover s = false -> dict_get (key_of s) c = None ->
     match f_default s with Some o => exists v, f_unparse s o = Ok v /\ dict_get (key_of s) t = Some v | None => dict_get (key_of s) t = None end).
Proof.
  intros O schema c t S N H. unfold load_save in H. destruct (parse_fields schema c) as [[obj c']|] eqn:P; [|discriminate]. cbn [bind fst snd] in H.
  assert (P' := P). apply parse_simple in P'; [|exact S|exact N]. destruct P' as (A & B & C & D & E).
  destruct (unparse_simple O schema obj c' [] t S B) as [F G]; [|exact C|exact H|].
  { intros s Hs. exists (field_value s c). apply E, Hs. }
  split; [|split].
  - intros k X L. rewrite (G k X), L, (D k X). destruct (dict_get k c); reflexivity.
  - intros s w Hs L K Nw. specialize (F s Hs L). rewrite (E s Hs), L in F. unfold field_value, dict_get_or_none in F. rewrite K in F.
    assert (Q : exists o, f_parse s w = Ok o).
    { destruct (f_parse s w) as [o|] eqn:Q; [eauto|]. exfalso. revert P Hs L K Nw Q N. destruct S as (S1 & _ & S3). clear -S1 S3.
      revert c obj c'. induction schema as [|x schema IH]; intros c obj c' P Hs L K Nw Q N; [destruct Hs|]. cbn [parse_fields] in P.
      destruct Hs as [->|Hs].
      - rewrite L in P. rewrite pop_simple in P by (apply S1; left; reflexivity). cbn [bind fst snd] in P. unfold dict_get_or_none in P. rewrite K in P.
        unfold parse_value in P. destruct w; try congruence; rewrite Q in P; discriminate.
      - assert (S1' : forall y, In y schema -> ~ In "."%char (key_of y)) by (intros y Hy; apply S1; right; exact Hy).
        destruct (f_leftover x) eqn:Lx.
        + destruct (parse_fields schema c) as [[o2 c2]|] eqn:P2; [|discriminate]. cbn [filter] in S3. rewrite Lx in S3. eapply (IH S1' S3); eassumption.
        + cbn [filter] in S3. rewrite Lx in S3. cbn [negb map] in S3. inversion S3 as [|? ? M M2]; subst.
          rewrite pop_simple in P by (apply S1; left; reflexivity). cbn [bind fst snd] in P.
          destruct (parse_value x (dict_get_or_none (key_of x) c)) as [v|]; [|discriminate]. cbn [bind] in P.
          destruct (parse_fields schema (dict_without (key_of x) c)) as [[o2 c2]|] eqn:P2; [|discriminate].
          apply (IH S1' M2 _ o2 c2 P2 Hs L); [|exact Nw|exact Q|apply without_keys, N]. rewrite dict_get_without.
          destruct (str_eqb (key_of s) (key_of x)) eqn:QQ; [|exact K]. apply str_eqb_eq in QQ. exfalso. apply M. rewrite <- QQ. apply in_map, filter_In.
          split; [exact Hs|rewrite L; reflexivity]. }
    destruct Q as [o Q]. exists o. assert (FV : (match w with VNull => f_default s | _ => match f_parse s w with Ok o0 => Some o0 | Err _ => None end end) = Some o).
    { destruct w; try congruence; rewrite Q; reflexivity. }
    rewrite FV in F. destruct F as (v & U & T). exists v. auto.
  - intros s Hs L K. specialize (F s Hs L). rewrite (E s Hs), L in F. unfold field_value, dict_get_or_none in F. rewrite K in F.
    destruct (f_default s) as [o|]; exact F.
Qed.
Example C64_witness : simple [raw_field "name" None None; raw_field "bind_only" (Some (lit "bind-only")) (Some (VBool false)); leftover_field "args"] /\
  load_save [raw_field "name" None None; raw_field "bind_only" (Some (lit "bind-only")) (Some (VBool false)); leftover_field "args"]
    [(lit "url", VStr "u"); (lit "name", VStr "n")] = Ok [(lit "name", VStr "n"); (lit "bind-only", VBool false); (lit "url", VStr "u")].
Proof.
  split; [|vm_compute; reflexivity]. split; [|split].
  - intros s [<-|[<-|[<-|[]]]]; cbn; intuition discriminate.
  - cbn. repeat constructor; cbn; intuition discriminate.
  - cbn. repeat constructor; cbn; intuition discriminate.
Qed.

(** REFUTED for project files: once there is a [tool] table in the file, loading and saving it drops the settings under
    [tool.pkm] (the leftover [tool] table replaces the written one). *)
Definition project_file : table :=
  [(lit "project", VTab [(lit "name", VStr "n")]);
   (lit "tool", VTab [(lit "pkm", VTab [(lit "project", VTab [(lit "packages", VList [VStr "src"])])]);
                      (lit "other", VTab [(lit "x", VInt 1)])])].
Theorem C64_tool_table_refuted : exists t, load_save pyproject_schema project_file = Ok t /\
  get project_file [lit "tool"; lit "pkm"; lit "project"; lit "packages"] = Some (VList [VStr "src"]) /\
  get t [lit "tool"; lit "pkm"; lit "project"; lit "packages"] = None /\
  get t [lit "tool"; lit "other"; lit "x"] = Some (VInt 1).
Proof. eexists. split; [vm_compute; reflexivity|]. vm_compute. repeat split; reflexivity. Qed.
(** and so for every project file with a [tool] table: the three settings are not in the saved file *)
Lemma pop_keys_nodup : forall ps c p v c', NoDup (map fst c) -> pop_parts c p ps = Ok (v, c') -> NoDup (map fst c').
Proof.
  intros [|p2 ps] c p v c' N H; cbn [pop_parts] in H.
  - injection H as _ <-. apply without_keys, N.
  - destruct (truthy (dict_get_or_none p c)); [|injection H as _ <-; exact N]. destruct (dict_get_or_none p c); try discriminate.
    destruct (pop_parts t p2 ps) as [[x y]|]; [|discriminate]. injection H as _ <-. apply dict_set_keys, N.
Qed.
Lemma pop_keeps_tool : forall c key v c' tool, pop_key c key = Ok (v, c') -> split_on "." key <> [lit "tool"] ->
  get c [lit "tool"] = Some (VTab tool) -> exists tool', get c' [lit "tool"] = Some (VTab tool').
Proof.
  intros c key v c' tool H N G. destruct (C39_pop _ _ _ _ H) as (_ & _ & Oth & Abv).
  destruct (split_on "." key) as [|k r] eqn:S; [apply split_on_nonempty in S; destruct S|].
  destruct (str_eqb k "tool") eqn:E.
  - apply str_eqb_eq in E. subst k. destruct r as [|k2 r]; [congruence|]. destruct (Abv [lit "tool"] (k2 :: r)) as [X|(t & t' & _ & X)]; try discriminate; try reflexivity.
    + exists tool. congruence. + exists t'. exact X.
  - apply str_eqb_neq in E. exists tool. rewrite Oth; [exact G| |]; intros [x X]; apply (f_equal (hd [])) in X; cbn [hd app] in X; congruence.
Qed.
Lemma unparse_last : forall O (l : list (field O)) lf obj left_ t0 t, dict_get (f_name lf) obj = Some Rest ->
  unparse_fields (l ++ [lf]) obj left_ t0 = Ok t -> exists t1, t = dict_update t1 left_.
Proof.
  induction l as [|s l IH]; intros lf obj left_ t0 t E H; cbn [app unparse_fields] in H.
  - rewrite E in H. injection H as <-. eauto.
  - destruct (dict_get (f_name s) obj) as [[[o|]|]|]; try (eapply IH; eassumption).
    destruct (f_unparse s o); [|discriminate]. destruct (shove_key t0 (key_of s) a); [|discriminate]. eapply IH; eassumption.
Qed.
Theorem C64_tool_table_always : forall c tool t k, NoDup (map fst c) -> dict_get (lit "tool") c = Some (VTab tool) ->
  load_save pyproject_schema c = Ok t -> In k [lit "project"; lit "application"; lit "distribution"] ->
  get t [lit "tool"; lit "pkm"; k] = None.
Proof.
  intros c tool t k N G H Hk. unfold load_save, pyproject_schema in H. cbn [parse_fields raw_field leftover_field f_leftover f_name] in H.
  repeat match type of H with context [key_of ?s] => let x := eval vm_compute in (key_of s) in change (key_of s) with x in H end.
  destruct (pop_key c _) as [[v1 c1]|] eqn:P1 in H; [|discriminate]. cbn [bind fst snd] in H.
  destruct (parse_value _ v1) as [w1|] in H; [|discriminate]. cbn [bind] in H.
  destruct (pop_key c1 _) as [[v2 c2]|] eqn:P2 in H; [|discriminate]. cbn [bind fst snd] in H.
  destruct (parse_value _ v2) as [w2|] in H; [|discriminate]. cbn [bind] in H.
  destruct (pop_key c2 _) as [[v3 c3]|] eqn:P3 in H; [|discriminate]. cbn [bind fst snd] in H.
  destruct (parse_value _ v3) as [w3|] in H; [|discriminate]. cbn [bind] in H.
  destruct (pop_key c3 _) as [[v4 c4]|] eqn:P4 in H; [|discriminate]. cbn [bind fst snd] in H.
  destruct (parse_value _ v4) as [w4|] in H; [|discriminate]. cbn [bind] in H.
  destruct (pop_key c4 _) as [[v5 c5]|] eqn:P5 in H; [|discriminate]. cbn [bind fst snd] in H.
  destruct (parse_value _ v5) as [w5|] in H; [|discriminate]. cbn [bind fst snd] in H.
  assert (N5 : NoDup (map fst c5)).
  { assert (N1 := pop_keys_nodup _ _ _ _ _ N P1). assert (N2 := pop_keys_nodup _ _ _ _ _ N1 P2). assert (N3 := pop_keys_nodup _ _ _ _ _ N2 P3).
    assert (N4 := pop_keys_nodup _ _ _ _ _ N3 P4). exact (pop_keys_nodup _ _ _ _ _ N4 P5). }
  assert (T5 : exists tool5, get c5 [lit "tool"] = Some (VTab tool5)).
  { destruct (pop_keeps_tool _ _ _ _ _ P1 ltac:(vm_compute; discriminate) G) as [x1 G1].
    destruct (pop_keeps_tool _ _ _ _ _ P2 ltac:(vm_compute; discriminate) G1) as [x2 G2].
    destruct (pop_keeps_tool _ _ _ _ _ P3 ltac:(vm_compute; discriminate) G2) as [x3 G3].
    destruct (pop_keeps_tool _ _ _ _ _ P4 ltac:(vm_compute; discriminate) G3) as [x4 G4].
    exact (pop_keeps_tool _ _ _ _ _ P5 ltac:(vm_compute; discriminate) G4). }
  destruct T5 as [tool5 T5].
  assert (Gone : get c5 [lit "tool"; lit "pkm"; k] = None).
  { destruct (C39_pop _ _ _ _ P2) as (_ & A2 & _). destruct (C39_pop _ _ _ _ P3) as (_ & _ & B3 & _).
    destruct (C39_pop _ _ _ _ P4) as (_ & A4 & B4 & _). destruct (C39_pop _ _ _ _ P5) as (_ & A5 & B5 & _).
    destruct Hk as [<-|[<-|[<-|[]]]].
    - rewrite B5, B4, B3; [exact A2|..]; vm_compute; intros [r X]; discriminate X.
    - rewrite B5; [exact A4|..]; vm_compute; intros [r X]; discriminate X.
    - exact A5. }
  assert (F : exists t0, t = dict_update t0 c5).
  { eapply (unparse_last _ [_; _; _; _; _] (leftover_field "_leftovers")); [|exact H]. reflexivity. }
  destruct F as [t0 ->]. cbn [get] in T5 |- *. rewrite update_get, T5 by exact N5. cbn [get] in Gone. rewrite T5 in Gone. exact Gone.
Qed.
(** settings of a class without a leftover field that it does not know are dropped *)
Theorem C64_unknown_setting_refuted : exists t, load_save [raw_field "requires" None None] [(lit "requires", VInt 1); (lit "x", VInt 2)] = Ok t /\ dict_get (lit "x") t = None.
Proof. eexists. split; vm_compute; reflexivity. Qed.

(** names of people are quoted and escaped again each time they are loaded *)
Lemma escape_length : forall s, length s <= length (escape_name s).
Proof. induction s as [|c s IH]; [apply le_n|]. cbn [escape_name flat_map]. rewrite app_length. destruct (escape_char c); cbn [length]; unfold escape_name in IH; lia. Qed.
Lemma escape_plain : forall s, existsb special_char s = false -> escape_name s = s.
Proof.
  induction s as [|c s IH]; intro H; [reflexivity|]. cbn [existsb] in H. apply orb_false_iff in H. destruct H as [H1 H2]. cbn [escape_name flat_map].
  assert (E : escape_char c = false). { unfold escape_char. unfold special_char in H1. cbn in H1.
    repeat (apply orb_false_iff in H1; let A := fresh in destruct H1 as [A H1]; try rewrite A). reflexivity. }
  rewrite E. cbn. f_equal. apply IH, H2.
Qed.
Theorem C64_contact_stable_iff : forall s, contact_name s = s <-> existsb special_char s = false.
Proof.
  intro s. unfold contact_name. destruct (existsb special_char s) eqn:E.
  - split; [|discriminate]. intro H. apply (f_equal (@length ascii)) in H. rewrite !app_length in H. pose proof (escape_length s). cbn [length lit] in H. cbn in H. lia.
  - rewrite escape_plain by exact E. rewrite app_nil_r. split; reflexivity.
Qed.
(** a quoted name grows with every load, without bound *)
Lemma contact_special : forall s, existsb special_char s = true -> existsb special_char (contact_name s) = true.
Proof. intros s H. unfold contact_name. rewrite H. reflexivity. Qed.
Lemma contact_longer : forall s, existsb special_char s = true -> length s + 2 <= length (contact_name s).
Proof. intros s H. unfold contact_name. rewrite H, !app_length. pose proof (escape_length s). cbn [length]. cbn. lia. Qed.
Theorem C64_contact_grows_refuted : forall s n, existsb special_char s = true -> length s + 2 * n <= length (Nat.iter n contact_name s).
Proof.
  intros s n H. assert (K : existsb special_char (Nat.iter n contact_name s) = true /\ length s + 2 * n <= length (Nat.iter n contact_name s)).
  { induction n as [|n [IH1 IH2]]; [cbn; rewrite Nat.add_0_r; auto|]. change (Nat.iter (S n) contact_name s) with (contact_name (Nat.iter n contact_name s)). split; [apply contact_special, IH1|].
    pose proof (contact_longer _ IH1). lia. }
  apply K.
Qed.
Example C64_contact_witness : contact_name "Ann B. C" = lit """Ann B. C""" /\ contact_name (contact_name "Ann B. C") = lit """\""Ann B. C\""""".
Proof. split; vm_compute; reflexivity. Qed.

Print Assumptions C39_write_read.
Print Assumptions C39_write_others.
Print Assumptions C39_write_above_partial.
Print Assumptions C39_write_fails_iff.
Print Assumptions C39_pop.
Print Assumptions C39_pop_fails_iff.
Print Assumptions C39_write_pop.
Print Assumptions C39_false_value_refuted.
Print Assumptions C64_load_save_partial.
Print Assumptions C64_tool_table_refuted.
Print Assumptions C64_tool_table_always.
Print Assumptions C64_unknown_setting_refuted.
Print Assumptions C64_contact_stable_iff.
Print Assumptions C64_contact_grows_refuted.

(** ** C110: required settings.  C111: reading a configuration twice *)
Lemma prefix_dec : forall p q, prefix p q \/ ~ prefix p q.
Proof.
  induction p as [|a p IH]; intros q; [left; exists q; reflexivity|]. destruct q as [|b q]; [right; intros (r & E); discriminate|].
  destruct (list_eq_dec ascii_dec a b) as [->|N]; [|right; intros (r & E); injection E; congruence]. destruct (IH q) as [(r & ->)|M]; [left; exists r; reflexivity|].
  right. intros (r & E). injection E as E. apply M. exists r. exact E.
Qed.
Lemma get_below : forall p q c, p <> [] -> get c p = None -> get c (p ++ q) = None.
Proof.
  induction p as [|k p IH]; intros q c N H; [congruence|]. destruct p as [|k2 p].
  - cbn [app]. cbn in H. destruct q as [|k2 q]; [exact H|]. rewrite get_cons, H. reflexivity.
  - rewrite get_cons in H. change ((k :: k2 :: p) ++ q) with (k :: k2 :: p ++ q). rewrite get_cons. destruct (dict_get k c) as [[]|]; try reflexivity. apply (IH q); [discriminate|exact H].
Qed.
(** popping only takes away *)
Lemma pop_only_removes : forall c key v c' q, pop_key c key = Ok (v, c') -> q <> [] -> (get c q = None -> get c' q = None) /\ (get c q = Some VNull -> get c' q <> None -> get c' q = Some VNull).
Proof.
  intros c key v c' q H N. destruct (C39_pop _ _ _ _ H) as (_ & G & Oth & Abv). destruct (prefix_dec (split_on "." key) q) as [(r & ->)|P].
  - assert (X : get c' (split_on "." key ++ r) = None) by (apply get_below; [rewrite <- key_parts_eq; discriminate|exact G]). rewrite X. split; congruence.
  - destruct (prefix_dec q (split_on "." key)) as [(r & E)|Q].
    + destruct r as [|x r]; [exfalso; apply P; exists []; rewrite app_nil_r in *; congruence|]. destruct (Abv q (x :: r) N ltac:(discriminate) E) as [->|(t & t' & -> & ->)]; split; congruence.
    + rewrite (Oth q P Q). split; congruence.
Qed.
Lemma fields_only_removed : forall O (schema : list (field O)) c obj c' q, parse_fields schema c = Ok (obj, c') -> q <> [] -> get c q = None -> get c' q = None.
Proof.
  intros O schema. induction schema as [|s r IH]; intros c obj c' q H N G; cbn [parse_fields] in H; [injection H as <- <-; exact G|]. destruct (f_leftover s).
  - destruct (parse_fields r c) as [[o2 c2]|] eqn:E; [|discriminate]. injection H as <- <-. exact (IH _ _ _ _ E N G).
  - destruct (pop_key c (key_of s)) as [[v c1]|] eqn:P; [|discriminate]. cbn [bind fst snd] in H. destruct (parse_value s v); [|discriminate]. cbn [bind] in H. destruct (parse_fields r c1) as [[o2 c2]|] eqn:E; [|discriminate].
    injection H as <- <-. apply (IH _ _ _ _ E N). exact (proj1 (pop_only_removes _ _ _ _ _ P N) G).
Qed.
Lemma split_nonempty : forall c s, split_on c s <> [].
Proof. intros c s. destruct (split_on c s) eqn:E; [|discriminate]. destruct s as [|a s]; [discriminate|]. cbn in E. destruct (split_on c s); destruct (Ascii.eqb a c); discriminate. Qed.
(** a configuration is only accepted if every required setting is in it and has a value *)
Theorem C110_required : forall O (schema : list (field O)) c obj c' s, parse_fields schema c = Ok (obj, c') ->
  In s schema -> f_required s = true -> f_leftover s = false -> exists w, get c (split_on "." (key_of s)) = Some w /\ w <> VNull.
Proof.
  intros O schema. induction schema as [|x r IH]; intros c obj c' s H I R L; [destruct I|]. cbn [parse_fields] in H. destruct I as [->|I].
  - rewrite L in H. destruct (pop_key c (key_of s)) as [[v c1]|] eqn:P; [|discriminate]. cbn [bind fst snd] in H. destruct (C39_pop _ _ _ _ P) as (E & _). destruct (get c (split_on "." (key_of s))) as [w|].
    + exists w. split; [reflexivity|]. intros ->. subst v. cbn in H. rewrite R in H. discriminate.
    + subst v. cbn in H. rewrite R in H. discriminate.
  - destruct (f_leftover x).
    + destruct (parse_fields r c) as [[o2 c2]|] eqn:E; [|discriminate]. exact (IH _ _ _ _ E I R L).
    + destruct (pop_key c (key_of x)) as [[v c1]|] eqn:P; [|discriminate]. cbn [bind fst snd] in H. destruct (parse_value x v); [|discriminate]. cbn [bind] in H. destruct (parse_fields r c1) as [[o2 c2]|] eqn:E; [|discriminate].
      destruct (IH _ _ _ _ E I R L) as (w & G & N). destruct (pop_only_removes _ _ _ _ (split_on "." (key_of s)) P (split_nonempty _ _)) as [A B].
      destruct (get c (split_on "." (key_of s))) as [w'|]; [exists w'; split; [reflexivity|]; intros ->; rewrite G in B; specialize (B eq_refl ltac:(discriminate)); congruence|rewrite (A eq_refl) in G; discriminate].
Qed.
(** reading takes the settings out of the dictionary that is read *)
Theorem C111_consumed : forall O (schema : list (field O)) c obj c' s, parse_fields schema c = Ok (obj, c') ->
  In s schema -> f_leftover s = false -> get c' (split_on "." (key_of s)) = None.
Proof.
  intros O schema. induction schema as [|x r IH]; intros c obj c' s H I L; [destruct I|]. cbn [parse_fields] in H. destruct I as [->|I].
  - rewrite L in H. destruct (pop_key c (key_of s)) as [[v c1]|] eqn:P; [|discriminate]. cbn [bind fst snd] in H. destruct (parse_value s v); [|discriminate]. cbn [bind] in H. destruct (parse_fields r c1) as [[o2 c2]|] eqn:E; [|discriminate].
    injection H as <- <-. apply (fields_only_removed _ _ _ _ _ _ E (split_nonempty _ _)). apply (C39_pop _ _ _ _ P).
  - destruct (f_leftover x).
    + destruct (parse_fields r c) as [[o2 c2]|] eqn:E; [|discriminate]. injection H as <- <-. exact (IH _ _ _ _ E I L).
    + destruct (pop_key c (key_of x)) as [[v c1]|] eqn:P; [|discriminate]. cbn [bind fst snd] in H. destruct (parse_value x v); [|discriminate]. cbn [bind] in H. destruct (parse_fields r c1) as [[o2 c2]|] eqn:E; [|discriminate].
      injection H as <- <-. exact (IH _ _ _ _ E I L).
Qed.
(** so a second reading of the same dictionary finds nothing: every setting has its default, and a required one is missed *)
Theorem C111_twice : forall O (schema : list (field O)) c obj c' obj2 c2, parse_fields schema c = Ok (obj, c') -> parse_fields schema c' = Ok (obj2, c2) ->
  obj2 = map (fun s => (f_name s, if f_leftover s then Rest else Value (f_default s))) schema /\ forall s, In s schema -> f_leftover s = false -> f_required s = false.
Proof.
  intros O schema c obj c' obj2 c2 H H2. assert (G : forall s, In s schema -> f_leftover s = false -> get c' (split_on "." (key_of s)) = None) by (intros s; apply (C111_consumed _ _ _ _ _ _ H)). clear H.
  split.
  - revert c' obj2 c2 H2 G. induction schema as [|s r IH]; intros c' obj2 c2 H2 G; cbn [parse_fields] in H2; [injection H2 as <- <-; reflexivity|]. cbn [map]. destruct (f_leftover s) eqn:L.
    + destruct (parse_fields r c') as [[o2 d2]|] eqn:E; [|discriminate]. injection H2 as <- <-. f_equal. apply (IH _ _ _ E). intros x I. apply G. right. exact I.
    + destruct (pop_key c' (key_of s)) as [[v d1]|] eqn:P; [|discriminate]. cbn [bind fst snd] in H2. destruct (C39_pop _ _ _ _ P) as (V & _). rewrite (G s (or_introl eq_refl) L) in V. subst v.
      cbn [parse_value] in H2. destruct (f_required s); [discriminate|]. cbn [bind] in H2. destruct (parse_fields r d1) as [[o2 d2]|] eqn:E; [|discriminate]. injection H2 as <- <-. cbn [fst]. f_equal. apply (IH _ _ _ E).
      intros x I Lx. apply (proj1 (pop_only_removes _ _ _ _ _ P (split_nonempty _ _))). apply G; [right; exact I|exact Lx].
  - intros s I L. destruct (f_required s) eqn:R; [exfalso|reflexivity]. destruct (C110_required _ _ _ _ _ _ H2 I R L) as (w & W & _). rewrite (G s I L) in W. discriminate.
Qed.
Definition project_fields : list (field val) := [
  {| f_name := lit "name"; f_key := None; f_required := true; f_leftover := false; f_default := None; f_parse := fun v => Ok v; f_unparse := fun v => Ok v |};
  raw_field "summary" (Some (lit "info.summary")) (Some (VStr [])); leftover_field "unread"].
Example C111_witness : exists c', parse_fields project_fields [(lit "name", VStr "x"); (lit "info", VTab [(lit "summary", VStr "y"); (lit "z", VInt 1)])] =
    Ok ([(lit "name", Value (Some (VStr "x"))); (lit "summary", Value (Some (VStr "y"))); (lit "unread", Rest)], c') /\
  parse_fields project_fields c' = Err ValueError /\ parse_fields (tl project_fields) c' = Ok ([(lit "summary", Value (Some (VStr []))); (lit "unread", Rest)], c').
Proof. eexists. split; [vm_compute; reflexivity|]. split; vm_compute; reflexivity. Qed.
Print Assumptions C110_required. Print Assumptions C111_consumed. Print Assumptions C111_twice.
(** REFUTED: the second object built from one dictionary is not equal to the first *)
Theorem C111_same_refuted : exists (schema : list (field val)) c c' o o' c2, parse_fields schema c = Ok (o, c') /\ parse_fields schema c' = Ok (o', c2) /\ o <> o'.
Proof. exists [raw_field "summary" None None], [(lit "summary", VStr "y")]. do 4 eexists. split; [vm_compute; reflexivity|]. split; [vm_compute; reflexivity|discriminate]. Qed.
Print Assumptions C111_same_refuted.
