(** From the per-byte invariant of the kernels to lists of bytes. *)
From Verif Require Import Base.Bytes Base.Res Model.Color565 Model.Ycc Model.Kernel
  Proofs.KernelCheck Proofs.KernelLoop Proofs.KernelFun Spec.Layout Proofs.LayoutFacts.
From Coq Require Import ZifyBool ZifyNat.

(** ** Sections one after another *)

Definition presum (l : list Z) (j : nat) : Z := fold_right Z.add 0 (firstn j l).
Definition total (l : list Z) : Z := fold_right Z.add 0 l.

Lemma presum_0 : forall l, presum l 0 = 0.
Proof. reflexivity. Qed.
Lemma presum_cons : forall x l j, presum (x :: l) (S j) = x + presum l j.
Proof. reflexivity. Qed.
Lemma presum_nonneg : forall l j, (forall x, In x l -> 0 <= x) -> 0 <= presum l j.
Proof.
  induction l as [|x l IH]; intros [|j] H; unfold presum; simpl; try lia.
  specialize (IH j (fun y Hy => H y (or_intror Hy))). unfold presum in IH.
  specialize (H x (or_introl eq_refl)). lia.
Qed.
(** section [j] ends before any later one starts, and before the end *)
Lemma presum_step : forall l j j', (forall x, In x l -> 0 <= x) -> (j < j')%nat ->
  presum l j + nth j l 0 <= presum l j'.
Proof.
  induction l as [|x l IH]; intros j j' H Hj.
  - destruct j, j'; unfold presum; simpl; lia.
  - destruct j' as [|j']; [lia|]. rewrite presum_cons.
    destruct j as [|j]; [|rewrite presum_cons].
    + rewrite presum_0. simpl. pose proof (presum_nonneg l j' (fun y Hy => H y (or_intror Hy))). lia.
    + simpl. specialize (IH j j' (fun y Hy => H y (or_intror Hy)) ltac:(lia)). lia.
Qed.
Lemma presum_all : forall l, presum l (List.length l) = total l.
Proof. intros. unfold presum, total. rewrite firstn_all. reflexivity. Qed.

(** Input sections from byte [a] of the input, output sections from byte [b] of the output. *)
Definition cconf (sh : shape) (a b N : Z) : conf :=
  Conf sh (map (fun k => Ptr BIn (a + N * presum (sh_ins sh) k)) (seq 0 (List.length (sh_ins sh))))
          (map (fun j => Ptr BOut (b + N * presum (map zlen (sh_outs sh)) j)) (seq 0 (List.length (sh_outs sh)))).

Lemma nth_map_seq : forall A (f : nat -> A) n k d, (k < n)%nat -> nth k (map f (seq 0 n)) d = f k.
Proof.
  intros A f n k d H. rewrite nth_indep with (d' := f O) by (rewrite map_length, seq_length; exact H).
  rewrite map_nth, seq_nth by exact H. reflexivity.
Qed.

Lemma base_in : forall sh a b N k, (k < List.length (sh_ins sh))%nat ->
  base (cconf sh a b N) (PI k) = Ptr BIn (a + N * presum (sh_ins sh) k).
Proof. intros. unfold base, cconf. cbn [cf_ins]. rewrite nth_map_seq by assumption. reflexivity. Qed.
Lemma base_out : forall sh a b N k, (k < List.length (sh_outs sh))%nat ->
  base (cconf sh a b N) (PO k) = Ptr BOut (b + N * presum (map zlen (sh_outs sh)) k).
Proof.
  intros. unfold base, cconf. cbn [cf_outs].
  rewrite (nth_map_seq _ (fun j => Ptr BOut (b + N * presum (map zlen (sh_outs sh)) j))) by assumption. reflexivity.
Qed.
Lemma soff_presum : forall sh x, soff sh x =
  match x with PI k => presum (sh_ins sh) k | PO j => presum (map zlen (sh_outs sh)) j end.
Proof. intros sh [k|j]; unfold soff, presum; [reflexivity|]. rewrite firstn_map. reflexivity. Qed.
Lemma stride_out : forall sh j, stride sh (PO j) = nth j (map zlen (sh_outs sh)) 0.
Proof. intros. unfold stride. change 0 with (zlen (@nil sb)). rewrite map_nth. reflexivity. Qed.

Definition shape_ok (sh : shape) : bool :=
  forallb (fun x => 0 <? x) (sh_ins sh) && forallb (fun t => 0 <? zlen t) (sh_outs sh)
  && forallb (forallb (no_junk sh)) (sh_outs sh)
  && negb (Nat.eqb (List.length (sh_ins sh)) 0) && negb (Nat.eqb (List.length (sh_outs sh)) 0).

Record shape_fine (sh : shape) : Prop := {
  sf_in : forall x, In x (sh_ins sh) -> 0 < x;
  sf_out : forall x, In x (map zlen (sh_outs sh)) -> 0 < x;
  sf_junk : forall t, In t (sh_outs sh) -> forall s, In s t -> no_junk sh s = true;
  sf_ni : (0 < List.length (sh_ins sh))%nat;
  sf_no : (0 < List.length (sh_outs sh))%nat
}.
Lemma shape_ok_fine : forall sh, shape_ok sh = true -> shape_fine sh.
Proof.
  intros sh H. unfold shape_ok in H.
  apply andb_true_iff in H. destruct H as [H A5]. apply andb_true_iff in H. destruct H as [H A4].
  apply andb_true_iff in H. destruct H as [H A3]. apply andb_true_iff in H. destruct H as [A1 A2].
  rewrite forallb_forall in A1, A2, A3. constructor.
  - intros x Hx. specialize (A1 x Hx). lia.
  - intros x Hx. apply in_map_iff in Hx. destruct Hx as (t & <- & Ht).
    specialize (A2 t Ht). lia.
  - intros t Ht s Hs. specialize (A3 t Ht). rewrite forallb_forall in A3. auto.
  - destruct (sh_ins sh); simpl in *; [discriminate|lia].
  - destruct (sh_outs sh); simpl in *; [discriminate|lia].
Qed.

Lemma WF_cconf : forall sh a b N m, shape_fine sh -> 0 <= a -> 0 <= b -> 0 <= N ->
  a + N * total (sh_ins sh) <= zlen (m_in m) ->
  b + N * total (map zlen (sh_outs sh)) <= zlen (m_out m) ->
  WF (cconf sh a b N) m N.
Proof.
  intros sh a b N m F Ha Hb HN Hi Ho.
  assert (P1 : forall x, In x (sh_ins sh) -> 0 <= x) by (intros x Hx; pose proof (sf_in _ F x Hx); lia).
  assert (P2 : forall x, In x (map zlen (sh_outs sh)) -> 0 <= x) by (intros x Hx; pose proof (sf_out _ F x Hx); lia).
  constructor.
  - exact HN.
  - unfold cconf; cbn [cf_ins cf_sh]. rewrite map_length, seq_length. reflexivity.
  - unfold cconf; cbn [cf_outs cf_sh]. rewrite map_length, seq_length. reflexivity.
  - intros k Hk. cbn [cf_sh cconf] in Hk. rewrite base_in by exact Hk. cbn [p_buf p_off buf_of cf_sh cconf stride].
    pose proof (sf_in _ F (nth k (sh_ins sh) 0) (nth_In _ _ Hk)).
    pose proof (presum_step (sh_ins sh) k (List.length (sh_ins sh)) P1 Hk) as HS. rewrite presum_all in HS.
    pose proof (presum_nonneg (sh_ins sh) k P1).
    repeat apply conj; [congruence|nia|lia|nia].
  - intros k Hk. cbn [cf_sh cconf] in Hk. rewrite base_out by exact Hk. cbn [p_buf p_off cf_sh cconf].
    rewrite stride_out.
    assert (Hk' : (k < List.length (map zlen (sh_outs sh)))%nat) by (rewrite map_length; exact Hk).
    pose proof (sf_out _ F (nth k (map zlen (sh_outs sh)) 0) (nth_In _ _ Hk')).
    pose proof (presum_step (map zlen (sh_outs sh)) k (List.length (map zlen (sh_outs sh))) P2 Hk') as HS. rewrite presum_all in HS.
    pose proof (presum_nonneg (map zlen (sh_outs sh)) k P2).
    repeat apply conj; [reflexivity|nia|lia|nia].
  - intros j j' Hj Hj' Hne. cbn [cf_sh cconf] in Hj, Hj'. rewrite !base_out by assumption. cbn [p_off cf_sh cconf].
    rewrite !stride_out.
    destruct (Nat.lt_ge_cases j j') as [L|L].
    + left. pose proof (presum_step (map zlen (sh_outs sh)) j j' P2 L). nia.
    + right. pose proof (presum_step (map zlen (sh_outs sh)) j' j P2 ltac:(lia)). nia.
Qed.

Lemma CONTIG_cconf : forall sh a b N, CONTIG (cconf sh a b N) N.
Proof.
  intros sh a b N [k|j] H; cbn [pid_ok cf_sh cconf] in H; apply Nat.ltb_lt in H;
    rewrite soff_presum; cbn [first_of cf_sh cconf].
  - rewrite !base_in by lia. unfold padd. cbn [p_buf p_off]. rewrite presum_0. f_equal. lia.
  - rewrite !base_out by lia. unfold padd. cbn [p_buf p_off]. rewrite presum_0. f_equal. lia.
Qed.

(** ** The output as a list *)

(** Byte [i] of block [bi] of input section [k]. *)
Definition rds (sh : shape) (a N : Z) (inp : list byte) (bi : Z) (k : nat) (i : Z) : byte :=
  znth inp (a + N * presum (sh_ins sh) k + bi * nth k (sh_ins sh) 0 + i).
Definition sec_out (junk : byte) (v : variant) (N : Z) (rd : Z -> nat -> Z -> byte) (t : list sb) : list byte :=
  List.concat (map (fun bi => map (seval junk v (rd bi)) t) (zseq 0 (Z.to_nat N))).
Definition sh_out (junk : byte) (v : variant) (sh : shape) (a N : Z) (inp : list byte) : list byte :=
  List.concat (map (sec_out junk v N (rds sh a N inp)) (sh_outs sh)).

Lemma slice_nil : forall A (l : list A) off, slice l off 0 = [].
Proof. reflexivity. Qed.

Lemma slice_section : forall (f : Z -> list byte) w L n s off,
  0 <= w -> 0 <= off -> 0 <= s -> off + (s + Z.of_nat n) * w <= zlen L ->
  (forall b, s <= b < s + Z.of_nat n -> zlen (f b) = w /\ forall t, 0 <= t < w -> znth L (off + b * w + t) = znth (f b) t) ->
  slice L (off + s * w) (Z.of_nat n * w) = List.concat (map f (zseq s n)).
Proof.
  intros f w L. induction n as [|n IH]; intros s off Hw Ho Hs HL H.
  - reflexivity.
  - cbn [zseq map List.concat].
    destruct (H s ltac:(lia)) as (H1 & H2).
    replace (Z.of_nat (S n) * w) with (w + Z.of_nat n * w) by lia.
    rewrite slice_app_split by nia. f_equal.
    + apply znth_ext; [rewrite zlen_slice by nia; lia|].
      intros i Hi. rewrite zlen_slice in Hi by nia. rewrite znth_slice by nia. apply H2. exact Hi.
    + replace (off + s * w + w) with (off + (s + 1) * w) by lia.
      apply IH; try nia. intros b Hb. apply H. lia.
Qed.

Lemma slice_sections : forall junk v N rd L ts off,
  0 <= N -> 0 <= off -> off + N * total (map zlen ts) <= zlen L ->
  (forall j bi t, (j < List.length ts)%nat -> 0 <= bi < N -> 0 <= t < zlen (nth j ts []) ->
     znth L (off + N * presum (map zlen ts) j + bi * zlen (nth j ts []) + t) =
     seval junk v (rd bi) (nth (Z.to_nat t) (nth j ts []) SJunk)) ->
  slice L off (N * total (map zlen ts)) = List.concat (map (sec_out junk v N rd) ts).
Proof.
  intros junk v N rd L. induction ts as [|t0 ts IH]; intros off HN Ho HL H.
  - unfold total. simpl. rewrite Z.mul_0_r. reflexivity.
  - cbn [map List.concat] in *. change (total (zlen t0 :: map zlen ts)) with (zlen t0 + total (map zlen ts)) in *.
    assert (HT : 0 <= total (map zlen ts)).
    { rewrite <- presum_all. apply presum_nonneg. intros x Hx. apply in_map_iff in Hx.
      destruct Hx as (y & <- & _). apply zlen_nonneg. }
    pose proof (zlen_nonneg _ t0).
    rewrite Z.mul_add_distr_l. rewrite slice_app_split by nia. f_equal.
    + unfold sec_out.
      pose proof (slice_section (fun bi => map (seval junk v (rd bi)) t0) (zlen t0) L (Z.to_nat N) 0 off) as E.
      rewrite Z2Nat.id in E by lia. rewrite Z.mul_0_l, Z.add_0_r in E. apply E; try lia.
      intros bi Hb. split; [apply zlen_map|]. intros t Ht.
      specialize (H O bi t ltac:(simpl; lia) ltac:(lia) Ht). simpl nth in H. rewrite presum_0 in H.
      replace (off + bi * zlen t0 + t) with (off + N * 0 + bi * zlen t0 + t) by lia. rewrite H.
      rewrite znth_map with (d := SJunk) by exact Ht. reflexivity.
    + replace (off + N * zlen t0) with (off + N * zlen t0) by lia. apply IH; try nia.
      intros j bi t Hj Hb Ht. specialize (H (S j) bi t ltac:(simpl; lia) Hb Ht).
      cbn [map] in H. rewrite presum_cons in H. cbn [nth] in H.
      rewrite <- H. f_equal. lia.
Qed.

Lemma presum_find : forall l pos, (forall x, In x l -> 0 < x) -> forall N, 0 <= N ->
  0 <= pos < N * total l -> exists j, (j < List.length l)%nat /\
  N * presum l j <= pos < N * presum l j + N * nth j l 0.
Proof.
  induction l as [|x l IH]; intros pos H N HN Hp.
  - unfold total in Hp. simpl in Hp. lia.
  - change (total (x :: l)) with (x + total l) in Hp.
    destruct (Z.lt_ge_cases pos (N * x)) as [L|L].
    + exists O. rewrite presum_0. simpl. lia.
    + destruct (IH (pos - N * x) (fun y Hy => H y (or_intror Hy)) N HN ltac:(nia)) as (j & Hj & Hb).
      exists (S j). rewrite presum_cons. simpl. split; lia.
Qed.

(** All blocks done: the output buffer has the sections at [b] and is otherwise unchanged. *)
Lemma INV_done : forall junk v sh a b N m0 m, shape_fine sh -> 0 <= a -> 0 <= b -> 0 <= N ->
  a + N * total (sh_ins sh) <= zlen (m_in m0) ->
  b + N * total (map zlen (sh_outs sh)) <= zlen (m_out m0) ->
  INV junk v (cconf sh a b N) m0 N N m ->
  m = Mem (m_in m0) (m_aux m0) (splice (m_out m0) b (sh_out junk v sh a N (m_in m0))).
Proof.
  intros junk v sh a b N m0 m F Ha Hb HN Hi Ho I.
  assert (P2 : forall x, In x (map zlen (sh_outs sh)) -> 0 <= x) by (intros x Hx; pose proof (sf_out _ F x Hx); lia).
  assert (HT : 0 <= total (map zlen (sh_outs sh))) by (rewrite <- presum_all; apply presum_nonneg; exact P2).
  pose proof (inv_len _ _ _ _ _ _ _ I) as HL.
  assert (E : slice (m_out m) b (N * total (map zlen (sh_outs sh))) = sh_out junk v sh a N (m_in m0)).
  { apply slice_sections; try lia.
    intros j bi t Hj Hbi Ht.
    pose proof (inv_done _ _ _ _ _ _ _ I j bi t Hj Hbi) as D. cbn [cf_sh cconf] in D.
    unfold at_blk in D. rewrite base_out in D by exact Hj. cbn [padd p_off cf_sh cconf stride] in D.
    specialize (D Ht). rewrite D.
    assert (HJ : forall s, In s (nth j (sh_outs sh) []) -> no_junk sh s = true).
    { intros s Hs. apply (sf_junk _ F (nth j (sh_outs sh) [])); [apply nth_In; exact Hj|exact Hs]. }
    assert (HS : In (nth (Z.to_nat t) (nth j (sh_outs sh) []) SJunk) (nth j (sh_outs sh) [])).
    { apply nth_In. unfold zlen in Ht. lia. }
    specialize (HJ _ HS). revert HJ. generalize (nth (Z.to_nat t) (nth j (sh_outs sh) []) SJunk) as s.
    induction s as [k i|c| |d p lo IHlo hi IHhi]; intros HJ; cbn [no_junk] in HJ; cbn [seval];
      try reflexivity.
    - unfold rdb, at_blk, rds. rewrite base_in by lia.
      cbn [padd p_buf p_off buf_of cf_sh cconf stride]. reflexivity.
    - apply andb_true_iff in HJ. destruct HJ as [J1 J2]. rewrite IHlo, IHhi by assumption. reflexivity. }
  assert (ZL : zlen (sh_out junk v sh a N (m_in m0)) = N * total (map zlen (sh_outs sh))).
  { rewrite <- E. apply zlen_slice; nia. }
  destruct m as [i x o]. pose proof (inv_in _ _ _ _ _ _ _ I) as E1. pose proof (inv_aux _ _ _ _ _ _ _ I) as E2.
  cbn [m_in m_aux m_out] in *. subst i x. f_equal.
  apply znth_ext.
  - rewrite zlen_splice by nia. lia.
  - intros pos Hp. rewrite znth_splice by nia. rewrite ZL.
    destruct ((b <=? pos) && (pos <? b + N * total (map zlen (sh_outs sh)))) eqn:Ec.
    + rewrite <- E. rewrite znth_slice by lia. f_equal. lia.
    + apply (inv_frame _ _ _ _ _ _ _ I); [lia|].
      intros j Hj. cbn [cf_sh cconf] in *. rewrite base_out by exact Hj. cbn [p_off]. rewrite stride_out.
      assert (Hj' : (j < List.length (map zlen (sh_outs sh)))%nat) by (rewrite map_length; exact Hj).
      pose proof (presum_step (map zlen (sh_outs sh)) j (List.length (map zlen (sh_outs sh))) P2 Hj') as HS.
      rewrite presum_all in HS. pose proof (presum_nonneg (map zlen (sh_outs sh)) j P2). nia.
Qed.

(** ** Transform shapes are layouts *)

Lemma seval_ext : forall junk junk' v sh rd rd' s, no_junk sh s = true ->
  (forall k i, (k < List.length (sh_ins sh))%nat -> 0 <= i < nth k (sh_ins sh) 0 -> rd k i = rd' k i) ->
  seval junk v rd s = seval junk' v rd' s.
Proof.
  intros junk junk' v sh rd rd'. induction s as [k i|c| |d p lo IHlo hi IHhi]; intros HJ H; cbn [no_junk] in HJ; cbn [seval].
  - apply H; lia.
  - reflexivity.
  - discriminate.
  - apply andb_true_iff in HJ. destruct HJ as [J1 J2]. rewrite IHlo, IHhi by assumption. reflexivity.
Qed.

Definition tmpl_field (v : variant) (k : nat) (t : list sb) (f : field) : Prop :=
  forall blk, List.length blk = k -> map (seval x00 v (fun _ i => znth blk i)) t = f blk.

Lemma znth_chunk : forall k n l bi i, (bi < n)%nat -> 0 <= i < Z.of_nat k ->
  znth (nth bi (chunks k n l) []) i = znth l (Z.of_nat bi * Z.of_nat k + i).
Proof.
  intros k n l bi i Hb Hi. rewrite nth_chunks by exact Hb. unfold znth.
  rewrite nth_firstn by lia. rewrite nth_skipn. f_equal. lia.
Qed.

Lemma zseq_seq : forall n s, zseq (Z.of_nat s) n = map Z.of_nat (seq s n).
Proof.
  induction n as [|n IH]; intros s; simpl; [reflexivity|]. f_equal. rewrite <- IH. f_equal. lia.
Qed.

Lemma znth_slice_in : forall l off n i, 0 <= off -> 0 <= i < n -> off + n <= zlen l ->
  znth (slice l off n) i = znth l (off + i).
Proof. intros. apply znth_slice; lia. Qed.

Lemma sh_out_lay : forall junk v sh k fs a N inp,
  shape_fine sh -> sh_ins sh = [Z.of_nat k] -> Forall2 (tmpl_field v k) (sh_outs sh) fs ->
  0 <= a -> 0 <= N -> a + N * Z.of_nat k <= zlen inp ->
  sh_out junk v sh a N inp = lay fs (chunks k (Z.to_nat N) (slice inp a (N * Z.of_nat k))).
Proof.
  intros junk v sh k fs a N inp F Hin HF Ha HN Hl. unfold sh_out.
  pose proof (sf_junk _ F) as HJ.
  assert (Hrd : forall bi kk i, 0 <= bi < N -> (kk < List.length (sh_ins sh))%nat -> 0 <= i < nth kk (sh_ins sh) 0 ->
     rds sh a N inp bi kk i = znth (nth (Z.to_nat bi) (chunks k (Z.to_nat N) (slice inp a (N * Z.of_nat k))) []) i).
  { intros bi kk i Hb Hkk Hi. rewrite Hin in *. destruct kk as [|kk]; [|simpl in Hkk; lia]. simpl nth in Hi.
    rewrite znth_chunk by lia. rewrite Z2Nat.id by lia. rewrite znth_slice by nia.
    unfold rds. rewrite Hin. rewrite presum_0. simpl nth. f_equal. lia. }
  set (bs := chunks k (Z.to_nat N) (slice inp a (N * Z.of_nat k))) in *.
  assert (Hbs : List.length bs = Z.to_nat N) by apply chunks_length.
  assert (Hbk : forall b, In b bs -> List.length b = k).
  { intros b Hb. apply (chunks_in k (Z.to_nat N) (slice inp a (N * Z.of_nat k))); [|exact Hb].
    pose proof (zlen_slice _ inp a (N * Z.of_nat k) ltac:(lia) ltac:(nia) ltac:(lia)) as Z. unfold zlen in Z. nia. }
  revert HJ. induction HF as [|t f ts fs Ht HF IH]; intros HJ; [reflexivity|].
  rewrite lay_cons. cbn [map List.concat]. rewrite IH; [|intros t' Ht'; apply HJ; right; exact Ht'].
  f_equal. unfold sec_out. f_equal.
  change 0 with (Z.of_nat 0). rewrite zseq_seq, map_map.
  transitivity (map (fun i => f (nth i bs [])) (seq 0 (Z.to_nat N))).
  - apply map_ext_in. intros i Hi. apply in_seq in Hi.
    rewrite <- Ht by (apply Hbk, nth_In; lia).
    apply map_ext_in. intros s Hs. apply seval_ext with (sh := sh).
    + apply (HJ t); [left; reflexivity|exact Hs].
    + intros kk j Hkk Hj. rewrite Hrd by lia. rewrite Nat2Z.id. reflexivity.
  - rewrite <- (map_map (fun i => nth i bs []) f). rewrite <- Hbs. rewrite map_nth_seq. reflexivity.
Qed.

(** ** Untransform shapes are inverse layouts *)

Definition tmpl_blk (v : variant) (t : list sb) (cs : list (list byte)) : list byte :=
  map (seval x00 v (fun k i => znth (nth k cs []) i)) t.

Lemma nth_sections : forall ws n l k, (k < List.length ws)%nat ->
  nth k (sections ws n l) [] = chunks (nth k ws O) n (skipn (n * sum (firstn k ws)) l).
Proof.
  induction ws as [|w ws IH]; intros n l k H; simpl in H; [lia|].
  destruct k as [|k]; simpl.
  - rewrite Nat.mul_0_r. reflexivity.
  - rewrite IH by lia. rewrite skipn_skipn'. f_equal. f_equal. unfold sum. lia.
Qed.

Lemma sum_presum : forall ws k, Z.of_nat (sum (firstn k ws)) = presum (map Z.of_nat ws) k.
Proof.
  induction ws as [|w ws IH]; intros [|k]; try reflexivity.
  cbn [firstn map]. rewrite presum_cons. simpl. rewrite <- IH. unfold sum. lia.
Qed.
Lemma sum_total : forall ws, Z.of_nat (sum ws) = total (map Z.of_nat ws).
Proof.
  intros ws. rewrite <- (firstn_all ws) at 1. rewrite sum_presum.
  rewrite <- (map_length Z.of_nat ws). apply presum_all.
Qed.

Lemma sh_out_unlay : forall junk v sh ws t a N inp,
  shape_fine sh -> sh_ins sh = map Z.of_nat ws -> sh_outs sh = [t] ->
  0 <= a -> 0 <= N -> a + N * total (sh_ins sh) <= zlen inp ->
  sh_out junk v sh a N inp = unlay ws (tmpl_blk v t) (Z.to_nat N) (slice inp a (N * total (sh_ins sh))).
Proof.
  intros junk v sh ws t a N inp F Hin Hout Ha HN Hl. unfold sh_out. rewrite Hout. cbn [map List.concat].
  rewrite app_nil_r. unfold sec_out, unlay. f_equal.
  change 0 with (Z.of_nat 0) at 1. rewrite zseq_seq, map_map.
  assert (P1 : forall x, In x (sh_ins sh) -> 0 <= x) by (intros x Hx; pose proof (sf_in _ F x Hx); lia).
  apply map_ext_in. intros bi Hbi. apply in_seq in Hbi. unfold tmpl_blk.
  apply map_ext_in. intros s Hs. apply seval_ext with (sh := sh).
  - apply (sf_junk _ F t); [rewrite Hout; left; reflexivity|exact Hs].
  - intros k i Hk Hi.
    assert (Hk' : (k < List.length ws)%nat) by (rewrite Hin, map_length in Hk; exact Hk).
    assert (Hw : nth k (sh_ins sh) 0 = Z.of_nat (nth k ws O)).
    { rewrite Hin. change 0 with (Z.of_nat 0). apply map_nth. }
    set (L := slice inp a (N * total (sh_ins sh))).
    rewrite nth_indep with (d' := nth bi (@nil (list byte)) []) by (rewrite map_length, sections_length; exact Hk').
    rewrite (map_nth (fun s0 => nth bi s0 [])). rewrite nth_sections by exact Hk'.
    rewrite znth_chunk by lia.
    unfold rds. rewrite Hw.
    pose proof (presum_step (sh_ins sh) k (List.length (sh_ins sh)) P1 Hk) as HS. rewrite presum_all in HS.
    pose proof (presum_nonneg (sh_ins sh) k P1) as HP.
    assert (Ez : Z.of_nat (sum (firstn k ws)) = presum (sh_ins sh) k) by (rewrite Hin; apply sum_presum).
    replace (znth (skipn (Z.to_nat N * sum (firstn k ws)) L) (Z.of_nat bi * Z.of_nat (nth k ws O) + i))
      with (znth L (N * presum (sh_ins sh) k + Z.of_nat bi * Z.of_nat (nth k ws O) + i)).
    + unfold L. rewrite znth_slice by nia. f_equal. lia.
    + unfold znth. rewrite nth_skipn. f_equal. nia.
Qed.
