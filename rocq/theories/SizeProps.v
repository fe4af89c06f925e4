(** Properties of sizes and of files that are read in pieces: C310, C311. *)
From Coq Require Import String Ascii List Bool NArith Arith Lia.
From Verif Require Import Base BaseFacts SizeModel.
Import ListNotations.
Open Scope string_scope.
Open Scope nat_scope.
Open Scope list_scope.
Open Scope bool_scope.

(** ** C310: the hash of a file is that of its bytes, however they are delivered *)
Lemma reuse_now : forall size reads buffer, length buffer = size -> (forall p, In p reads -> length p <= size) ->
  map (fun x => deref (snd x) (fst x)) (fst (reuse_chunks size buffer reads)) = new_chunks reads.
Proof.
  intros size reads. induction reads as [|p reads IH]; intros buffer Hb Hr; [reflexivity|]. destruct p as [|c p]; [reflexivity|].
  cbn [reuse_chunks new_chunks]. specialize (IH (readinto buffer (c :: p))).
  assert (Hp : length (c :: p) <= size) by (apply Hr; left; reflexivity).
  destruct (reuse_chunks size (readinto buffer (c :: p)) reads) as [l last]. cbn [fst map snd] in *. rewrite IH; [|unfold readinto; rewrite app_length, skipn_length; lia|intros q Hq; apply Hr; right; exact Hq].
  f_equal. destruct (Nat.eqb_spec (length (c :: p)) size) as [E|E]; cbn [deref].
  - unfold readinto. rewrite skipn_all2 by lia. apply app_nil_r.
  - unfold readinto. rewrite firstn_app, firstn_all, Nat.sub_diag. cbn [firstn]. apply app_nil_r.
Qed.
Lemma new_all : forall reads, ~ In [] reads -> new_chunks reads = reads.
Proof.
  induction reads as [|p reads IH]; intros H; [reflexivity|]. destruct p as [|c p]; [exfalso; apply H; left; reflexivity|].
  cbn [new_chunks]. rewrite IH; [reflexivity|]. intros X. apply H. right. exact X.
Qed.
Lemma new_stop : forall a b, ~ In [] a -> new_chunks (a ++ [] :: b) = a.
Proof.
  induction a as [|p a IH]; intros b H; [reflexivity|]. destruct p as [|c p]; [exfalso; apply H; left; reflexivity|].
  cbn [app new_chunks]. rewrite IH; [reflexivity|]. intros X. apply H. right. exact X.
Qed.
(** who is done with each piece before asking for the next gets what was delivered up to the end of the file *)
Theorem C310_pieces : forall size reads rest, (forall p, In p reads -> p <> [] /\ length p <= size) -> (forall p, In p rest -> length p <= size) ->
  used_at_once size (reads ++ [] :: rest) = reads.
Proof.
  intros size reads rest H Hrest. unfold used_at_once. rewrite reuse_now.
  - apply new_stop. intros X. exact (proj1 (H [] X) eq_refl).
  - apply repeat_length.
  - intros p Hp. apply in_app_or in Hp. destruct Hp as [Hp|[<-|Hp]]; [exact (proj2 (H p Hp))|cbn; lia|exact (Hrest p Hp)].
Qed.
(** so two ways to deliver the same bytes, in pieces of whatever sizes, have the same digest: that of the bytes one by one *)
Theorem C310_digest : forall H (step : H -> ascii -> H) h size reads, (forall p, In p reads -> p <> [] /\ length p <= size) ->
  digest step h size (reads ++ [[]]) = fold_left step (concat reads) h.
Proof.
  intros H step h size reads Hr. unfold digest. rewrite (C310_pieces size reads [] Hr) by (intros p []). clear Hr. revert h.
  induction reads as [|p reads IH]; intros h; [reflexivity|]. cbn [fold_left concat]. rewrite fold_left_app. apply IH.
Qed.
(** the pieces cannot be kept: of two of full size the first has become the second *)
Theorem C310_kept_refuted : forall size a b, 0 < size -> length a = size -> length b = size ->
  kept size [a; b; []] = [b; b] /\ used_at_once size [a; b; []] = [a; b].
Proof.
  intros size a b Hs Ha Hb. split.
  - unfold kept. destruct a as [|x a]; [cbn in Ha; lia|]. destruct b as [|y b]; [cbn in Hb; lia|]. cbn [reuse_chunks]. rewrite Ha, Hb, Nat.eqb_refl.
    cbn [map fst deref]. unfold readinto. rewrite Ha, Hb.
    assert (E : skipn size ((x :: a) ++ skipn size (zeros size)) = []).
    { apply skipn_all2. rewrite app_length, skipn_length, Ha. unfold zeros. rewrite repeat_length. lia. }
    rewrite E, app_nil_r. reflexivity.
  - assert (G : forall p, In p [a; b] -> p <> [] /\ length p <= size).
    { intros p [<-|[<-|[]]]; (split; [intros X; rewrite X in *; cbn in *; lia|lia]). }
    exact (C310_pieces size [a; b] [] G (fun p X => match X with end)).
Qed.
Example C310_example :
  used_at_once 4 [lit "abcd"; lit "ef"; lit "ghij"; []] = [lit "abcd"; lit "ef"; lit "ghij"] /\
  digest (fun h c => (h * 31 + N_of_ascii c) mod 65521)%N 7%N 4 [lit "abcd"; lit "ef"; lit "ghij"; []] =
  digest (fun h c => (h * 31 + N_of_ascii c) mod 65521)%N 7%N 3 [lit "abc"; lit "def"; lit "ghi"; lit "j"; []] /\
  kept 4 [lit "abcd"; lit "ef"; []] = [lit "efcd"; lit "ef"].
Proof. vm_compute. repeat split. Qed.

(** ** C311: the sizes that are shown *)
Lemma hundredths_near : forall n sz, (0 < sz)%N -> (2 * (100 * n) <= 2 * (hundredths n sz * sz) + sz)%N /\ (2 * (hundredths n sz * sz) <= 2 * (100 * n) + sz)%N.
Proof.
  intros n sz Hs. pose proof (N.div_mod (100 * n) sz ltac:(lia)) as D. pose proof (N.mod_lt (100 * n) sz ltac:(lia)) as L. unfold hundredths.
  remember (100 * n / sz)%N as q. remember (100 * n mod sz)%N as r. clear Heqq Heqr. rewrite D. 
  destruct (N.compare_spec (2 * r) sz) as [E|E|E]; [destruct (N.even q)| |]; rewrite ?N.mul_add_distr_r; nia.
Qed.
(** the number has two decimals and is within half a hundredth of the size; the unit is the greatest that is not above the size *)
Theorem C311_size : forall n, (1024 <= n)%N -> exists whole d e u sz,
  numbytes_to_human n = show_N whole ++ lit "." ++ [ascii_of_N (48 + d); ascii_of_N (48 + e)] ++ [u] /\
  In (u, sz) [("K"%char, 1024); ("M"%char, 1024 * 1024); ("G"%char, 1024 * 1024 * 1024); ("T"%char, 1024 * 1024 * 1024 * 1024)]%N /\
  (d < 10)%N /\ (e < 10)%N /\ (sz <= n)%N /\ (u = "T"%char \/ n < 1024 * sz)%N /\
  (2 * (100 * n) <= 2 * ((100 * whole + 10 * d + e) * sz) + sz)%N /\ (2 * ((100 * whole + 10 * d + e) * sz) <= 2 * (100 * n) + sz)%N.
Proof.
  intros n Hn.
  assert (G : forall u sz, In (u, sz) [("K"%char, 1024); ("M"%char, 1024 * 1024); ("G"%char, 1024 * 1024 * 1024); ("T"%char, 1024 * 1024 * 1024 * 1024)]%N ->
    (sz <= n)%N -> (u = "T"%char \/ n < 1024 * sz)%N -> numbytes_to_human n = fixed2 (hundredths n sz) ++ [u] -> exists whole d e u sz,
  numbytes_to_human n = show_N whole ++ lit "." ++ [ascii_of_N (48 + d); ascii_of_N (48 + e)] ++ [u] /\
  In (u, sz) [("K"%char, 1024); ("M"%char, 1024 * 1024); ("G"%char, 1024 * 1024 * 1024); ("T"%char, 1024 * 1024 * 1024 * 1024)]%N /\
  (d < 10)%N /\ (e < 10)%N /\ (sz <= n)%N /\ (u = "T"%char \/ n < 1024 * sz)%N /\
  (2 * (100 * n) <= 2 * ((100 * whole + 10 * d + e) * sz) + sz)%N /\ (2 * ((100 * whole + 10 * d + e) * sz) <= 2 * (100 * n) + sz)%N).
  { intros u sz Hin Hle Hu E. set (q := hundredths n sz) in *. exists (q / 100)%N, (q / 10 mod 10)%N, (q mod 10)%N, u, sz.
    assert (Hs : (0 < sz)%N) by (cbn [In] in Hin; repeat (destruct Hin as [Hin|Hin]; [injection Hin as _ <-; lia|]); contradiction).
    assert (Q : (100 * (q / 100) + 10 * (q / 10 mod 10) + q mod 10)%N = q).
    { change 100%N with (10 * 10)%N at 2. rewrite <- N.div_div by lia. pose proof (N.div_mod q 10 ltac:(lia)) as A. pose proof (N.div_mod (q / 10) 10 ltac:(lia)) as B. lia. }
    rewrite Q. pose proof (hundredths_near n sz Hs) as [N1 N2]. fold q in N1, N2.
    split; [rewrite E; unfold fixed2, digit; rewrite <- app_assoc; reflexivity|]. split; [exact Hin|].
    split; [apply N.mod_lt; lia|]. split; [apply N.mod_lt; lia|]. auto. }
  unfold numbytes_to_human, units in *. cbn [in_units] in *.
  destruct (N.leb_spec (2 ^ 40) n) as [L4|L4]; [apply (G "T"%char (2 ^ 40)%N); [cbn; auto|exact L4|left; reflexivity|reflexivity]|].
  destruct (N.leb_spec (2 ^ 30) n) as [L3|L3]; [apply (G "G"%char (2 ^ 30)%N); [cbn; auto|exact L3|right; exact L4|reflexivity]|].
  destruct (N.leb_spec (2 ^ 20) n) as [L2|L2]; [apply (G "M"%char (2 ^ 20)%N); [cbn; auto|exact L2|right; exact L3|reflexivity]|].
  destruct (N.leb_spec (2 ^ 10) n) as [L1|L1]; [apply (G "K"%char (2 ^ 10)%N); [cbn; auto|exact L1|right; exact L2|reflexivity]|].
  exfalso. change (2 ^ 10)%N with 1024%N in L1. lia.
Qed.
Theorem C311_bytes : forall n, (n < 1024)%N -> numbytes_to_human n = show_N n ++ lit "B".
Proof.
  intros n H. unfold numbytes_to_human, units. cbn [in_units].
  destruct (N.leb_spec (2 ^ 40) n) as [L|_]; [exfalso; change (2 ^ 40)%N with 1099511627776%N in L; lia|].
  destruct (N.leb_spec (2 ^ 30) n) as [L|_]; [exfalso; change (2 ^ 30)%N with 1073741824%N in L; lia|].
  destruct (N.leb_spec (2 ^ 20) n) as [L|_]; [exfalso; change (2 ^ 20)%N with 1048576%N in L; lia|].
  destruct (N.leb_spec (2 ^ 10) n) as [L|_]; [exfalso; change (2 ^ 10)%N with 1024%N in L; lia|]. reflexivity.
Qed.
(** the number is not always below 1024: different units are shown for what is the same *)
Theorem C311_rounded_up_refuted : numbytes_to_human 1048575 = lit "1024.00K" /\ numbytes_to_human 1048576 = lit "1.00M".
Proof. vm_compute. split; reflexivity. Qed.
(** the bytes of the files below a directory, and those that its directories take themselves *)
Fixpoint files_in (e : entry) : list N := match e with SFile n => [n] | SDir _ l => flat_map files_in l end.
Fixpoint dirs_in (e : entry) : list N := match e with SFile _ => [] | SDir own l => own :: flat_map dirs_in l end.
Definition total (l : list N) : N := fold_right N.add 0%N l.
Section Induction.
Context (P : entry -> Prop) (HS : forall n, P (SFile n)) (HF : forall own l, Forall P l -> P (SDir own l)).
Fixpoint entry_all (e : entry) : P e :=
  match e with
  | SFile n => HS n
  | SDir own l => HF own l ((fix go l : Forall P l := match l with [] => Forall_nil _ | x :: r => Forall_cons x (entry_all x) (go r) end) l)
  end.
End Induction.
Lemma total_app : forall a b, total (a ++ b) = (total a + total b)%N.
Proof.
  induction a as [|x a IH]; intros b; [reflexivity|]. change (x + total (a ++ b) = x + total a + total b)%N. rewrite IH. apply N.add_assoc.
Qed.
Lemma size_split : forall e, entry_size e = (total (files_in e) + total (dirs_in e))%N.
Proof.
  induction e as [n|own l IH] using entry_all; [cbn; lia|]. cbn [entry_size files_in dirs_in].
  assert (G : fold_right (fun x a => (entry_size x + a)%N) 0%N l = (total (flat_map files_in l) + total (flat_map dirs_in l))%N).
  { induction IH as [|x l Hx _ IHl]; [reflexivity|]. cbn [fold_right flat_map]. rewrite IHl, Hx, !total_app. lia. }
  rewrite G. change (total (own :: flat_map dirs_in l)) with (own + total (flat_map dirs_in l))%N. lia.
Qed.
(** the size of a directory is that of its files exactly if the directories below it take nothing themselves *)
Theorem C311_directory_partial : forall l, dir_size l = total (flat_map files_in l) <-> total (flat_map dirs_in l) = 0%N.
Proof.
  intros l. assert (G : dir_size l = (total (flat_map files_in l) + total (flat_map dirs_in l))%N).
  { induction l as [|x l IH]; [reflexivity|]. unfold dir_size in *. cbn [fold_right flat_map]. rewrite IH, size_split, !total_app. lia. }
  rewrite G. lia.
Qed.
Theorem C311_directory_refuted : dir_size [SDir 4096 []] = 4096%N /\ flat_map files_in [SDir 4096 []] = [].
Proof. split; reflexivity. Qed.
Example C311_example :
  numbytes_to_human 1000 = lit "1000B" /\ numbytes_to_human 1536 = lit "1.50K" /\ numbytes_to_human 123456789 = lit "117.74M" /\
  dir_size [SFile 10; SDir 0 [SFile 5; SDir 0 []]] = 15%N.
Proof. vm_compute. repeat split. Qed.
