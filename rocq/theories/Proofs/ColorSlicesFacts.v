(** The batch colour functions. *)
From Verif Require Import Base.Bytes Base.Res Model.Color565 Model.ColorSlices Spec.ColorSlices Proofs.Color565Facts.
From Coq Require Import ZifyBool ZifyNat.
Open Scope string_scope.
Open Scope list_scope.
Open Scope Z_scope.

Lemma splice_parts : forall (p m r d : list Z), List.length d = List.length m -> splice (p ++ m ++ r) (zlen p) d = p ++ d ++ r.
Proof.
  intros p m r d L. unfold splice, zlen. rewrite Nat2Z.id. rewrite firstn_app, firstn_all, Nat.sub_diag. cbn [firstn]. rewrite app_nil_r.
  f_equal. f_equal. rewrite L. rewrite <- app_length. rewrite app_assoc. rewrite skipn_app, skipn_all, Nat.sub_diag. reflexivity.
Qed.
Lemma splice_snoc : forall (mem d : list Z) off v, 0 <= off -> off + zlen d < zlen mem ->
  splice (splice mem off d) (off + zlen d) [v] = splice mem off (d ++ [v]).
Proof.
  intros mem d off v H1 H2. unfold zlen in *.
  assert (exists p m x r, mem = p ++ m ++ [x] ++ r /\ List.length p = Z.to_nat off /\ List.length m = List.length d) as (p & m & x & r & -> & LP & LM).
  { exists (firstn (Z.to_nat off) mem), (firstn (List.length d) (skipn (Z.to_nat off) mem)).
    destruct (skipn (List.length d) (skipn (Z.to_nat off) mem)) as [|x r] eqn:E.
    - apply (f_equal (@List.length Z)) in E. rewrite !skipn_length in E. cbn in E. lia.
    - exists x, r. split; [|rewrite !firstn_length, ?skipn_length; lia]. rewrite <- (firstn_skipn (Z.to_nat off) mem) at 1. f_equal.
      rewrite <- (firstn_skipn (List.length d) (skipn (Z.to_nat off) mem)) at 1. rewrite E. reflexivity. }
  replace off with (zlen p) by (unfold zlen; lia). rewrite splice_parts by lia.
  replace (zlen p + Z.of_nat (List.length d)) with (zlen (p ++ d)) by (unfold zlen; rewrite app_length; lia).
  rewrite app_assoc. rewrite (splice_parts (p ++ d) [x] r [v]) by reflexivity.
  replace (p ++ m ++ [x] ++ r) with (p ++ (m ++ [x]) ++ r) by (rewrite <- app_assoc; reflexivity).
  rewrite splice_parts by (rewrite !app_length; cbn [List.length]; lia). rewrite <- !app_assoc. reflexivity.
Qed.
Lemma nth_splice : forall (mem d : list Z) off i, 0 <= off -> off + zlen d <= zlen mem -> 0 <= i -> (i < off \/ off + zlen d <= i) ->
  nth (Z.to_nat i) (splice mem off d) 0 = nth (Z.to_nat i) mem 0.
Proof.
  intros mem d off i H1 H2 H3 H4. unfold splice. unfold zlen in *. destruct H4 as [H4|H4].
  - rewrite app_nth1 by (rewrite firstn_length; lia). apply nth_firstn. lia.
  - rewrite app_assoc. rewrite app_nth2 by (rewrite app_length, firstn_length; lia). rewrite app_length, firstn_length, nth_skipn. f_equal. lia.
Qed.
Lemma slice_snoc : forall (mem : list Z) off n, 0 <= off -> 0 <= n -> off + n < zlen mem ->
  slice mem off (n + 1) = slice mem off n ++ [nth (Z.to_nat (off + n)) mem 0].
Proof.
  intros mem off n H1 H2 H3. unfold slice, zlen in *. replace (Z.to_nat (n + 1)) with (S (Z.to_nat n)) by lia.
  replace (Z.to_nat (off + n)) with (Z.to_nat off + Z.to_nat n)%nat by lia.
  rewrite <- nth_skipn.
  assert (L : (Z.to_nat n < List.length (skipn (Z.to_nat off) mem))%nat) by (rewrite skipn_length; lia).
  revert L. generalize (skipn (Z.to_nat off) mem) (Z.to_nat n). intros l k. revert l. induction k as [|k IH]; intros [|a l] L; cbn in L; try lia; [reflexivity|].
  cbn [firstn nth app]. f_equal. apply IH. lia.
Qed.
Lemma per_item_ok : forall f mem src dst n count x, 0 <= src -> 0 <= dst -> src + n <= zlen mem -> dst + n <= zlen mem -> same_or_apart src dst n ->
  0 <= x -> x + Z.of_nat count = n ->
  per_item f count x src dst (splice mem dst (map f (slice mem src x))) = Ok (splice mem dst (map f (slice mem src n))).
Proof.
  intros f mem src dst n count. induction count as [|count IH]; intros x H1 H2 H3 H4 A H5 H6; cbn [per_item].
  - replace n with x by lia. reflexivity.
  - assert (ZS : zlen (map f (slice mem src x)) = x) by (rewrite zlen_map; apply zlen_slice; lia).
    unfold rd, wr. rewrite zlen_splice by lia. replace ((0 <=? src + x) && (src + x <? zlen mem)) with true by lia. cbn [bind].
    replace ((0 <=? dst + x) && (dst + x <? zlen mem)) with true by lia. cbn [bind].
    rewrite nth_splice; [|lia|lia|lia|unfold same_or_apart in A; lia].
    replace (dst + x) with (dst + zlen (map f (slice mem src x))) by lia. rewrite splice_snoc by lia.
    rewrite <- (IH (x + 1)) by (try assumption; lia). rewrite (slice_snoc mem src x) by lia. rewrite map_app. reflexivity.
Qed.
Lemma splice_nil : forall (mem : list Z) off, 0 <= off -> splice mem off [] = mem.
Proof. intros mem off H. unfold splice. cbn [List.length app]. rewrite Nat.add_0_r. apply firstn_skipn. Qed.
Lemma per_item_all : forall f mem src dst n, 0 <= src -> 0 <= dst -> 0 <= n -> src + n <= zlen mem -> dst + n <= zlen mem -> same_or_apart src dst n ->
  per_item f (Z.to_nat n) 0 src dst mem = Ok (splice mem dst (map f (slice mem src n))).
Proof.
  intros f mem src dst n H1 H2 H3 H4 H5 A. rewrite <- (per_item_ok f mem src dst n (Z.to_nat n) 0) by (try assumption; lia).
  unfold slice at 1. cbn [Z.to_nat firstn map]. rewrite splice_nil by exact H2. reflexivity.
Qed.
Lemma splice_self : forall (mem : list Z) off n, 0 <= off -> 0 <= n -> off + n <= zlen mem -> splice mem off (slice mem off n) = mem.
Proof.
  intros mem off n H1 H2 H3. unfold splice, slice. rewrite firstn_length, skipn_length. unfold zlen in *.
  replace (Nat.min (Z.to_nat n) (List.length mem - Z.to_nat off)) with (Z.to_nat n) by lia.
  replace (Z.to_nat off + Z.to_nat n)%nat with (Z.to_nat n + Z.to_nat off)%nat by lia. rewrite <- skipn_skipn'. rewrite (firstn_skipn (Z.to_nat n)). apply firstn_skipn.
Qed.
Lemma copy_ok : forall mem src dst n, 0 <= src -> 0 <= dst -> 0 <= n -> src + n <= zlen mem -> dst + n <= zlen mem -> same_or_apart src dst n ->
  copy_ptr src dst n mem = Ok (splice mem dst (slice mem src n)).
Proof.
  intros mem src dst n H1 H2 H3 H4 H5 A. unfold copy_ptr, copy_nonoverlapping.
  destruct ((0 <? n) && negb (src =? dst)) eqn:E.
  - replace ((0 <=? src) && (src + n <=? zlen mem) && (0 <=? dst) && (dst + n <=? zlen mem)) with true by lia.
    replace ((src + n <=? dst) || (dst + n <=? src)) with true by (unfold same_or_apart in A; lia). reflexivity.
  - f_equal. destruct (src =? dst) eqn:Q.
    + replace dst with src by lia. symmetry. apply splice_self; lia.
    + replace n with 0 by lia. unfold slice. cbn [Z.to_nat firstn]. symmetry. apply splice_nil. lia.
Qed.
Lemma map_ident : forall (f : Z -> Z) l, (forall x, f x = x) -> map f l = l.
Proof. intros f l H. induction l as [|a l IH]; [reflexivity|]. cbn. rewrite H, IH. reflexivity. Qed.

Lemma decorrelate_ptr_ok : forall v mem src dst n, 0 <= src -> 0 <= dst -> 0 <= n -> src + n <= zlen mem -> dst + n <= zlen mem -> same_or_apart src dst n ->
  decorrelate_ptr src dst n v mem = Ok (splice mem dst (map (decorrelate v) (slice mem src n))).
Proof.
  intros [] mem src dst n H1 H2 H3 H4 H5 A; cbn [decorrelate_ptr]; [|apply per_item_all; assumption..].
  rewrite copy_ok by assumption. rewrite map_ident; reflexivity.
Qed.
Lemma recorrelate_ptr_ok : forall v mem src dst n, 0 <= src -> 0 <= dst -> 0 <= n -> src + n <= zlen mem -> dst + n <= zlen mem -> same_or_apart src dst n ->
  recorrelate_ptr src dst n v mem = Ok (splice mem dst (map (recorrelate v) (slice mem src n))).
Proof.
  intros [] mem src dst n H1 H2 H3 H4 H5 A; cbn [recorrelate_ptr]; [|apply per_item_all; assumption..].
  rewrite copy_ok by assumption. rewrite map_ident; reflexivity.
Qed.

Lemma skip_splice : forall (a b d : list Z), skipn (List.length a) (splice (a ++ b) (zlen a) d) = d ++ skipn (List.length d) b.
Proof.
  intros a b d. unfold splice, zlen. rewrite Nat2Z.id. rewrite firstn_app, firstn_all, Nat.sub_diag. cbn [firstn]. rewrite app_nil_r.
  rewrite skipn_app, skipn_all, Nat.sub_diag. cbn [skipn app]. f_equal. rewrite skipn_app, skipn_all2 by lia. cbn [app]. f_equal. lia.
Qed.
Lemma slice_front : forall (a b : list Z), slice (a ++ b) 0 (zlen a) = a.
Proof. intros a b. unfold slice, zlen. rewrite Nat2Z.id. cbn [Z.to_nat skipn]. rewrite firstn_app, firstn_all, Nat.sub_diag. cbn [firstn]. apply app_nil_r. Qed.

Lemma on_slices_ok : forall run f debug src dst, zlen src <= zlen dst ->
  (forall mem s d n, 0 <= s -> 0 <= d -> 0 <= n -> s + n <= zlen mem -> d + n <= zlen mem -> same_or_apart s d n -> run s d n mem = Ok (splice mem d (map f (slice mem s n)))) ->
  on_slices run debug src dst = Ok (map f src ++ skipn (List.length src) dst).
Proof.
  intros run f debug src dst L H. unfold on_slices, debug_assert. replace (zlen src <=? zlen dst) with true by lia.
  rewrite andb_false_r. cbn [bind]. unfold zlen in *.
  rewrite H; [|unfold same_or_apart; rewrite ?app_length; unfold zlen in *; rewrite ?app_length; lia..]. cbn [bind]. rewrite slice_front, skip_splice, map_length. reflexivity.
Qed.
Lemma decorrelate_slice_ok : forall debug v src dst, zlen src <= zlen dst ->
  decorrelate_slice debug v src dst = Ok (map (decorrelate v) src ++ skipn (List.length src) dst).
Proof. intros. unfold decorrelate_slice. apply on_slices_ok; [assumption|]. intros. apply decorrelate_ptr_ok; assumption. Qed.
Lemma recorrelate_slice_ok : forall debug v src dst, zlen src <= zlen dst ->
  recorrelate_slice debug v src dst = Ok (map (recorrelate v) src ++ skipn (List.length src) dst).
Proof. intros. unfold recorrelate_slice. apply on_slices_ok; [assumption|]. intros. apply recorrelate_ptr_ok; assumption. Qed.

Lemma map_inverse : forall (f g : Z -> Z) l, colours l -> (forall x, 0 <= x < 65536 -> g (f x) = x) -> map g (map f l) = l.
Proof. intros f g l H E. induction H as [|a l Ha H IH]; [reflexivity|]. cbn. rewrite E by exact Ha. rewrite IH. reflexivity. Qed.

(** ** Pairs *)
Lemma interleave_snoc : forall a b x y, List.length a = List.length b -> interleave (a ++ [x]) (b ++ [y]) = interleave a b ++ [x; y].
Proof. intros a. induction a as [|p a IH]; intros [|q b] x y L; cbn in L; try lia; [reflexivity|]. cbn [app interleave]. rewrite IH by lia. reflexivity. Qed.
Lemma interleave_length : forall a b, List.length a = List.length b -> List.length (interleave a b) = (2 * List.length a)%nat.
Proof. intros a. induction a as [|p a IH]; intros [|q b] L; cbn in L; try lia; [reflexivity|]. cbn [interleave List.length]. rewrite IH by lia. lia. Qed.
Lemma interleave_map : forall (f : Z -> Z) a b, interleave (map f a) (map f b) = map f (interleave a b).
Proof. intros f a. induction a as [|p a IH]; intros [|q b]; cbn [map interleave]; try reflexivity. rewrite IH. reflexivity. Qed.

Lemma per_pair_ok : forall f mem s0 s1 dst h count x, 0 <= s0 -> 0 <= s1 -> 0 <= dst -> s0 + h <= zlen mem -> s1 + h <= zlen mem -> dst + 2 * h <= zlen mem ->
  s0 + h <= dst \/ dst + 2 * h <= s0 -> s1 + h <= dst \/ dst + 2 * h <= s1 -> 0 <= x -> x + Z.of_nat count = h ->
  per_pair f count x s0 s1 dst (splice mem dst (map f (interleave (slice mem s0 x) (slice mem s1 x)))) =
  Ok (splice mem dst (map f (interleave (slice mem s0 h) (slice mem s1 h)))).
Proof.
  intros f mem s0 s1 dst h count. induction count as [|count IH]; intros x H1 H2 H3 H4 H5 H6 A0 A1 Hx Hc; cbn [per_pair].
  - replace h with x by lia. reflexivity.
  - set (d := map f (interleave (slice mem s0 x) (slice mem s1 x))).
    assert (ZD : zlen d = 2 * x).
    { unfold d. rewrite zlen_map. unfold zlen. pose proof (zlen_slice _ mem s0 x H1 Hx ltac:(lia)) as Z0. pose proof (zlen_slice _ mem s1 x H2 Hx ltac:(lia)) as Z1.
      unfold zlen in Z0, Z1. rewrite interleave_length by lia. lia. }
    unfold rd, wr. rewrite !zlen_splice by lia.
    replace ((0 <=? s0 + x) && (s0 + x <? zlen mem)) with true by lia. cbn [bind].
    replace ((0 <=? s1 + x) && (s1 + x <? zlen mem)) with true by lia. cbn [bind].
    rewrite (nth_splice mem d dst (s0 + x)) by lia. rewrite (nth_splice mem d dst (s1 + x)) by lia.
    replace ((0 <=? dst + x * 2) && (dst + x * 2 <? zlen mem)) with true by lia. cbn [bind].
    replace (dst + x * 2) with (dst + zlen d) by lia. rewrite splice_snoc by lia.
    set (d1 := d ++ [f (nth (Z.to_nat (s0 + x)) mem 0)]).
    assert (ZD1 : zlen d1 = 2 * x + 1) by (unfold d1, zlen in *; rewrite app_length; cbn [List.length]; lia).
    rewrite zlen_splice by lia.
    replace ((0 <=? dst + (x * 2 + 1)) && (dst + (x * 2 + 1) <? zlen mem)) with true by lia. cbn [bind].
    replace (dst + (x * 2 + 1)) with (dst + zlen d1) by lia. rewrite splice_snoc by lia.
    rewrite <- (IH (x + 1)) by (try assumption; lia). rewrite (slice_snoc mem s0 x), (slice_snoc mem s1 x) by lia.
    rewrite interleave_snoc.
    2:{ pose proof (zlen_slice _ mem s0 x H1 Hx ltac:(lia)) as Z0. pose proof (zlen_slice _ mem s1 x H2 Hx ltac:(lia)) as Z1. unfold zlen in Z0, Z1. lia. }
    rewrite map_app. cbn [map]. fold d. unfold d1. rewrite <- app_assoc. reflexivity.
Qed.
Lemma split_ptr_ok : forall f debug mem s0 s1 dst h, 0 <= h -> 0 <= s0 -> 0 <= s1 -> 0 <= dst -> s0 + h <= zlen mem -> s1 + h <= zlen mem -> dst + 2 * h <= zlen mem ->
  s0 + h <= dst \/ dst + 2 * h <= s0 -> s1 + h <= dst \/ dst + 2 * h <= s1 ->
  split_ptr f debug s0 s1 dst (2 * h) mem = Ok (splice mem dst (map f (interleave (slice mem s0 h) (slice mem s1 h)))).
Proof.
  intros f debug mem s0 s1 dst h H0 H1 H2 H3 H4 H5 H6 A0 A1. unfold split_ptr, debug_assert. replace (2 * h mod 2 =? 0) with true by lia.
  rewrite andb_false_r. cbn [bind]. replace (2 * h / 2) with h by lia.
  rewrite <- (per_pair_ok f mem s0 s1 dst h (Z.to_nat h) 0) by (try assumption; lia). unfold slice at 1 2. cbn [Z.to_nat firstn interleave map].
  rewrite splice_nil by exact H3. reflexivity.
Qed.
Lemma recorrelate_ptr_split_ok : forall v debug mem s0 s1 dst h, 0 <= h -> 0 <= s0 -> 0 <= s1 -> 0 <= dst -> s0 + h <= zlen mem -> s1 + h <= zlen mem -> dst + 2 * h <= zlen mem ->
  s0 + h <= dst \/ dst + 2 * h <= s0 -> s1 + h <= dst \/ dst + 2 * h <= s1 ->
  recorrelate_ptr_split debug s0 s1 dst (2 * h) v mem = Ok (splice mem dst (map (recorrelate v) (interleave (slice mem s0 h) (slice mem s1 h)))).
Proof.
  intros [] debug mem s0 s1 dst h H0 H1 H2 H3 H4 H5 H6 A0 A1; cbn [recorrelate_ptr_split]; [|apply split_ptr_ok; assumption..].
  rewrite (map_ident (recorrelate VNone)) by reflexivity. destruct (0 <? 2 * h) eqn:E.
  - rewrite split_ptr_ok by assumption. rewrite map_ident; reflexivity.
  - replace h with 0 by lia. unfold slice. cbn [Z.to_nat firstn interleave]. rewrite splice_nil by exact H3. reflexivity.
Qed.
Lemma slice_mid : forall (a b d : list Z), slice (a ++ b ++ d) (zlen a) (zlen b) = b.
Proof.
  intros a b d. unfold slice, zlen. rewrite !Nat2Z.id. rewrite skipn_app, skipn_all, Nat.sub_diag. cbn [skipn app].
  rewrite firstn_app, firstn_all, Nat.sub_diag. cbn [firstn]. apply app_nil_r.
Qed.
Lemma recorrelate_slice_split_ok : forall debug v s0 s1 dst, List.length s0 = List.length s1 -> 2 * zlen s0 <= zlen dst ->
  recorrelate_slice_split debug v s0 s1 dst = Ok (map (recorrelate v) (interleave s0 s1) ++ skipn (2 * List.length s0) dst).
Proof.
  intros debug v s0 s1 dst L H. unfold recorrelate_slice_split, debug_assert.
  assert (E : zlen s0 = zlen s1) by (unfold zlen; lia).
  replace (zlen s0 =? zlen s1) with true by lia. replace (zlen s0 * 2 <=? zlen dst) with true by lia. rewrite !andb_false_r. cbn [bind].
  replace (zlen s0 * 2) with (2 * zlen s0) by lia. assert (ZA : zlen (s0 ++ s1 ++ dst) = zlen s0 + zlen s1 + zlen dst) by (unfold zlen; rewrite !app_length; lia).
  assert (0 <= zlen s0) by (unfold zlen; lia).
  rewrite recorrelate_ptr_split_ok by lia. cbn [bind]. rewrite slice_front.
  replace (slice (s0 ++ s1 ++ dst) (zlen s0) (zlen s0)) with s1 by (rewrite E at 2; symmetry; apply slice_mid). rewrite E.
  replace (zlen s1 + zlen s1) with (zlen (s0 ++ s1)) by (unfold zlen in *; rewrite app_length; lia). rewrite (app_assoc s0 s1 dst). rewrite skip_splice.
  rewrite map_length, interleave_length by exact L. reflexivity.
Qed.
Lemma var_split_ok : forall f debug s0 s1 dst, List.length s0 = List.length s1 -> 2 * zlen s0 <= zlen dst ->
  on_split_slices (split_ptr f) debug s0 s1 dst = Ok (map f (interleave s0 s1) ++ skipn (2 * List.length s0) dst).
Proof.
  intros f debug s0 s1 dst L H. unfold on_split_slices, debug_assert.
  assert (E : zlen s0 = zlen s1) by (unfold zlen; lia).
  replace (zlen s0 =? zlen s1) with true by lia. replace (zlen s0 + zlen s1 <=? zlen dst) with true by lia. rewrite !andb_false_r. cbn [bind].
  replace (zlen s0 + zlen s1) with (2 * zlen s0) by lia. assert (ZA : zlen (s0 ++ s1 ++ dst) = zlen s0 + zlen s1 + zlen dst) by (unfold zlen; rewrite !app_length; lia).
  assert (0 <= zlen s0) by (unfold zlen; lia).
  rewrite split_ptr_ok by lia. cbn [bind]. rewrite slice_front.
  replace (slice (s0 ++ s1 ++ dst) (zlen s0) (zlen s0)) with s1 by (rewrite E at 2; symmetry; apply slice_mid). rewrite E.
  replace (2 * zlen s1) with (zlen (s0 ++ s1)) by (unfold zlen in *; rewrite app_length; lia). rewrite (app_assoc s0 s1 dst). rewrite skip_splice.
  rewrite map_length, interleave_length by exact L. reflexivity.
Qed.

(** ** Together *)
Lemma decorrelate_vars_ok : forall debug src dst, zlen src <= zlen dst ->
  decorrelate_var1_slice debug src dst = decorrelate_slice debug V1 src dst /\
  decorrelate_var2_slice debug src dst = decorrelate_slice debug V2 src dst /\
  decorrelate_var3_slice debug src dst = decorrelate_slice debug V3 src dst /\
  recorrelate_var1_slice debug src dst = recorrelate_slice debug V1 src dst /\
  recorrelate_var2_slice debug src dst = recorrelate_slice debug V2 src dst /\
  recorrelate_var3_slice debug src dst = recorrelate_slice debug V3 src dst.
Proof. intros. repeat split. Qed.
Lemma slices_round_trip : forall v d1 d2 src dst out, colours src -> zlen src <= zlen dst -> zlen src <= zlen out ->
  (exists enc, decorrelate_slice d1 v src dst = Ok (enc ++ skipn (List.length src) dst) /\ List.length enc = List.length src /\ colours enc /\
     recorrelate_slice d2 v enc out = Ok (src ++ skipn (List.length src) out)) /\
  (exists dec, recorrelate_slice d1 v src dst = Ok (dec ++ skipn (List.length src) dst) /\ List.length dec = List.length src /\ colours dec /\
     decorrelate_slice d2 v dec out = Ok (src ++ skipn (List.length src) out)).
Proof.
  intros v d1 d2 src dst out C H1 H2. split.
  - exists (map (decorrelate v) src). split; [apply decorrelate_slice_ok; exact H1|]. split; [apply map_length|]. split.
    + unfold colours in *. rewrite Forall_map. revert C. apply Forall_impl. intros a Ha. apply decorrelate_bound. exact Ha.
    + rewrite recorrelate_slice_ok by (rewrite zlen_map; exact H2). rewrite map_length. rewrite map_inverse; [reflexivity|exact C|]. intros x Hx. apply recorrelate_decorrelate. exact Hx.
  - exists (map (recorrelate v) src). split; [apply recorrelate_slice_ok; exact H1|]. split; [apply map_length|]. split.
    + unfold colours in *. rewrite Forall_map. revert C. apply Forall_impl. intros a Ha. apply recorrelate_bound. exact Ha.
    + rewrite decorrelate_slice_ok by (rewrite zlen_map; exact H2). rewrite map_length. rewrite map_inverse; [reflexivity|exact C|]. intros x Hx. apply decorrelate_recorrelate. exact Hx.
Qed.
Lemma slice_splice_same : forall (mem d : list Z) off, 0 <= off -> off + zlen d <= zlen mem -> slice (splice mem off d) off (zlen d) = d.
Proof.
  intros mem d off H1 H2. unfold slice, splice, zlen in *. rewrite skipn_app. rewrite skipn_all2 by (rewrite firstn_length; lia). cbn [app].
  rewrite firstn_length. replace (Z.to_nat off - Nat.min (Z.to_nat off) (List.length mem))%nat with 0%nat by lia. cbn [skipn].
  rewrite Nat2Z.id, firstn_app, firstn_all, Nat.sub_diag. cbn [firstn]. apply app_nil_r.
Qed.
Lemma splice_twice : forall (mem d d' : list Z) off, 0 <= off -> off + zlen d <= zlen mem -> List.length d' = List.length d -> splice (splice mem off d) off d' = splice mem off d'.
Proof.
  intros mem d d' off H1 H2 L. unfold zlen in *. unfold splice.
  rewrite firstn_app. rewrite firstn_firstn. rewrite firstn_length. replace (Z.to_nat off - Nat.min (Z.to_nat off) (List.length mem))%nat with 0%nat by lia.
  rewrite Nat.min_id. cbn [firstn]. rewrite app_nil_r. f_equal. f_equal.
  rewrite app_assoc, skipn_app. rewrite skipn_all2 by (rewrite app_length, firstn_length; lia). cbn [app]. rewrite skipn_skipn', app_length, firstn_length. f_equal. lia.
Qed.
Lemma slice_colours : forall mem off n, colours mem -> colours (slice mem off n).
Proof.
  intros mem off n C. unfold colours in *. rewrite Forall_forall in *. intros x I. apply C. unfold slice in I.
  rewrite <- (firstn_skipn (Z.to_nat off) mem). apply in_or_app. right. rewrite <- (firstn_skipn (Z.to_nat n) (skipn (Z.to_nat off) mem)). apply in_or_app. left. exact I.
Qed.
Lemma in_place_round_trip : forall v mem off n, colours mem -> 0 <= off -> 0 <= n -> off + n <= zlen mem ->
  (exists enc, decorrelate_ptr off off n v mem = Ok enc /\ recorrelate_ptr off off n v enc = Ok mem) /\
  (exists dec, recorrelate_ptr off off n v mem = Ok dec /\ decorrelate_ptr off off n v dec = Ok mem).
Proof.
  intros v mem off n C H1 H2 H3.
  assert (T : forall f g : Z -> Z, (forall x, 0 <= x < 65536 -> g (f x) = x) ->
     splice (splice mem off (map f (slice mem off n))) off (map g (slice (splice mem off (map f (slice mem off n))) off n)) = mem).
  { intros f g E. assert (ZN : zlen (map f (slice mem off n)) = n) by (rewrite zlen_map; apply zlen_slice; lia).
    replace (slice (splice mem off (map f (slice mem off n))) off n) with (map f (slice mem off n)).
    2:{ rewrite <- ZN at 3. symmetry. apply slice_splice_same; lia. }
    rewrite splice_twice by (rewrite ?map_length; lia). rewrite map_inverse by (try exact E; apply slice_colours; exact C). apply splice_self; assumption. }
  assert (LL : forall f : Z -> Z, zlen (splice mem off (map f (slice mem off n))) = zlen mem).
  { intros f. apply zlen_splice; [exact H1|]. rewrite zlen_map, zlen_slice; lia. }
  split.
  - eexists. split; [apply decorrelate_ptr_ok; try assumption; left; reflexivity|].
    rewrite recorrelate_ptr_ok; [f_equal; apply T; intros; apply recorrelate_decorrelate; assumption|rewrite ?LL; try assumption..]. left. reflexivity.
  - eexists. split; [apply recorrelate_ptr_ok; try assumption; left; reflexivity|].
    rewrite decorrelate_ptr_ok; [f_equal; apply T; intros; apply decorrelate_recorrelate; assumption|rewrite ?LL; try assumption..]. left. reflexivity.
Qed.
Lemma split_round_trip : forall v debug s0 s1 dst, colours s0 -> colours s1 -> List.length s0 = List.length s1 -> 2 * zlen s0 <= zlen dst ->
  recorrelate_slice_split debug v (map (decorrelate v) s0) (map (decorrelate v) s1) dst = Ok (interleave s0 s1 ++ skipn (2 * List.length s0) dst).
Proof.
  intros v debug s0 s1 dst C0 C1 L H. rewrite recorrelate_slice_split_ok; rewrite ?zlen_map, ?map_length; try assumption.
  rewrite <- interleave_map, !map_inverse; try assumption; [reflexivity| |]; intros; apply recorrelate_decorrelate; assumption.
Qed.
Lemma split_vars_ok : forall debug s0 s1 dst, List.length s0 = List.length s1 -> 2 * zlen s0 <= zlen dst ->
  recorrelate_var1_slice_split debug s0 s1 dst = recorrelate_slice_split debug V1 s0 s1 dst /\
  recorrelate_var2_slice_split debug s0 s1 dst = recorrelate_slice_split debug V2 s0 s1 dst /\
  recorrelate_var3_slice_split debug s0 s1 dst = recorrelate_slice_split debug V3 s0 s1 dst.
Proof.
  intros debug s0 s1 dst L H. rewrite !recorrelate_slice_split_ok by assumption.
  unfold recorrelate_var1_slice_split, recorrelate_var2_slice_split, recorrelate_var3_slice_split, recorrelate_var1_ptr_split, recorrelate_var2_ptr_split, recorrelate_var3_ptr_split.
  rewrite !var_split_ok by assumption. repeat split.
Qed.
Lemma short_destination : forall v src dst, zlen dst < zlen src ->
  decorrelate_slice true v src dst = Panic "Destination slice must be at least as large as source slice" /\
  recorrelate_slice true v src dst = Panic "Destination slice must be at least as large as source slice".
Proof.
  intros v src dst H. unfold decorrelate_slice, recorrelate_slice, on_slices, debug_assert. replace (zlen src <=? zlen dst) with false by lia. split; reflexivity.
Qed.
