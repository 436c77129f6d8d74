(** What a stopped transform leaves behind. *)
From Verif Require Import Base.Bytes Base.Res Model.Color565 Model.Kernel Model.Transform Model.Auto Model.Builders Model.Embed Model.Bundle Model.Dds Model.Handlers Model.Cli
  Model.Interrupted Spec.Layout Spec.Dds Spec.Cli Spec.Interrupted Proofs.DdsFacts Proofs.DdsHandler Proofs.CliFacts Proofs.CliDds.
From Coq Require Import ZifyBool ZifyNat.
Open Scope list_scope.
Open Scope Z_scope.

Section Trace.
Context {St Er : Type}.
Variables (show : Er -> string) (c : cfg) (v : env).

Lemma copy_range_ok : forall out a b d o, copy_range out a b d = Ok o -> o = splice out a d.
Proof. intros out a b d o H. unfold copy_range in H. destruct (range out a b); cbn [bind] in H; try discriminate. destruct (_ =? _); [injection H as <-; reflexivity|discriminate]. Qed.

Lemma transform_writes_ok : forall (t : bundle St Er) x out st r y st', dds_transform_bundle show c v t x out st = Ok (r, y, st') ->
  exists ws, dds_transform_writes show c v t x out st = Ok ws /\ y = fold_left (fun o w => written w o) ws out.
Proof.
  intros t x out st r y st' H. unfold dds_transform_bundle, dds_transform_writes in *.
  destruct (zlen out <? zlen x); [injection H as _ <- _; exists []; split; reflexivity|].
  destruct (parse_dds (c_debug c) x) as [[i|]| |]; cbn [bind] in *; try discriminate; [|injection H as _ <- _; exists []; split; reflexivity].
  destruct (usize_add (c_debug c) v (i_data_offset i) (i_data_length i)) as [e| |]; cbn [bind] in *; try discriminate.
  destruct (zlen x <? e); [injection H as _ <- _; exists []; split; reflexivity|].
  destruct (range x 0 (i_data_offset i)) as [head| |]; cbn [bind] in *; try discriminate.
  destruct (copy_range out 0 (i_data_offset i) head) as [out1| |] eqn:C1; cbn [bind] in *; try discriminate. apply copy_range_ok in C1.
  destruct (dds_format_to_transform_format (i_format i) false) as [f|er]; [|injection H as _ <- _; eexists; split; [reflexivity|exact C1]].
  destruct (range x (i_data_offset i) e) as [texture| |]; cbn [bind] in *; try discriminate.
  destruct (range out1 (i_data_offset i) e) as [target| |]; cbn [bind] in *; try discriminate.
  destruct (dispatch_transform show c v t f texture target st) as [[[[h|er] target1] st1]| |]; cbn [bind] in *; try discriminate.
  2:{ injection H as _ <- _. eexists. split; [reflexivity|]. cbn [fold_left written]. rewrite <- C1. reflexivity. }
  destruct (e <? zlen x).
  - destruct (range x e (zlen x)) as [leftover| |]; cbn [bind] in *; try discriminate.
    destruct (copy_range (splice out1 (i_data_offset i) target1) e (zlen (splice out1 (i_data_offset i) target1)) leftover) as [out2| |] eqn:C2; cbn [bind] in *; try discriminate.
    apply copy_range_ok in C2. injection H as _ <- _. eexists. split; [reflexivity|]. cbn [fold_left written app]. rewrite <- C1, <- C2. reflexivity.
  - cbn [bind] in *. injection H as _ <- _. eexists. split; [reflexivity|]. cbn [fold_left written app]. rewrite <- C1. reflexivity.
Qed.
Lemma untransform_writes_ok : forall x out r y, dds_untransform c v x out = Ok (r, y) ->
  exists ws, dds_untransform_writes c v x out = Ok ws /\ y = fold_left (fun o w => written w o) ws out.
Proof.
  intros x out r y H. unfold dds_untransform, dds_untransform_writes in *.
  destruct (zlen x <? 4); [injection H as _ <-; exists []; split; reflexivity|].
  destruct (zlen out <? zlen x); [injection H as _ <-; exists []; split; reflexivity|].
  destruct (parse_dds_ignore_magic (c_debug c) x) as [[i|]| |]; cbn [bind] in *; try discriminate; [|injection H as _ <-; exists []; split; reflexivity].
  destruct (usize_add (c_debug c) v (i_data_offset i) (i_data_length i)) as [e| |]; cbn [bind] in *; try discriminate.
  destruct (zlen x <? e); [injection H as _ <-; exists []; split; reflexivity|].
  destruct (copy_range out 0 4 (u32_bytes DDS_MAGIC)) as [out0| |] eqn:C0; cbn [bind] in *; try discriminate. apply copy_range_ok in C0.
  destruct (range x 4 (i_data_offset i)) as [head| |]; cbn [bind] in *; try discriminate.
  destruct (copy_range out0 4 (i_data_offset i) head) as [out1| |] eqn:C1; cbn [bind] in *; try discriminate. apply copy_range_ok in C1.
  destruct (range x (i_data_offset i) e) as [texture| |]; cbn [bind] in *; try discriminate.
  destruct (range out1 (i_data_offset i) e) as [target| |]; cbn [bind] in *; try discriminate.
  destruct (dispatch_untransform c (read_from_ptr x 0) texture target) as [[[h|er] target1]| |]; cbn [bind] in *; try discriminate.
  2:{ injection H as _ <-. eexists. split; [reflexivity|]. cbn [fold_left written]. rewrite <- C0, <- C1. reflexivity. }
  destruct (e <? zlen x).
  - destruct (range x e (zlen x)) as [leftover| |]; cbn [bind] in *; try discriminate.
    destruct (copy_range (splice out1 (i_data_offset i) target1) e (zlen (splice out1 (i_data_offset i) target1)) leftover) as [out2| |] eqn:C2; cbn [bind] in *; try discriminate.
    apply copy_range_ok in C2. injection H as _ <-. eexists. split; [reflexivity|]. cbn [fold_left written app]. rewrite <- C0, <- C1, <- C2. reflexivity.
  - cbn [bind] in *. injection H as _ <-. eexists. split; [reflexivity|]. cbn [fold_left written app]. rewrite <- C0, <- C1. reflexivity.
Qed.

(** The writes of a successful transform: the headers, then writes behind the
    first four bytes, then the embedded header. *)
Definition beyond (w : write) : Prop := match w with Copying a _ | Computing a _ => 4 <= a | Storing _ _ => False end.
Lemma writes_shape : forall (t : bundle St Er) x out st y st' i, parse_dds (c_debug c) x = Ok (Some i) ->
  dds_transform_bundle show c v t x out st = Ok (ROk tt, y, st') ->
  exists ws h, dds_transform_writes show c v t x out st = Ok (Copying 0 (slice x 0 (i_data_offset i)) :: ws ++ [Storing 0 (u32_bytes h)]) /\
    Forall beyond ws /\ zlen x <= zlen out /\ i_data_offset i <= zlen x.
Proof.
  intros t x out st y st' i P H. unfold dds_transform_bundle, dds_transform_writes in *. rewrite P in *.
  destruct (parse_facts _ _ _ (proj2 (parse_dds_facts _ _ _ P))) as (_ & _ & _ & _ & Hn & Ho & Hx).
  destruct (zlen out <? zlen x) eqn:L; [discriminate|]. cbn [bind] in *.
  destruct (usize_add (c_debug c) v (i_data_offset i) (i_data_length i)) as [e| |] eqn:U; cbn [bind] in *; try discriminate.
  destruct (zlen x <? e); [discriminate|].
  unfold range at 1 in H. unfold range at 1. destruct ((0 <=? 0) && (0 <=? i_data_offset i) && (i_data_offset i <=? zlen x)) eqn:R1; cbn [bind] in *; try discriminate.
  rewrite Z.sub_0_r in *.
  destruct (copy_range out 0 (i_data_offset i) (slice x 0 (i_data_offset i))) as [out1| |]; cbn [bind] in *; try discriminate.
  destruct (dds_format_to_transform_format (i_format i) false) as [f|er]; [|discriminate].
  destruct (range x (i_data_offset i) e) as [texture| |] eqn:R2; cbn [bind] in *; try discriminate.
  destruct (range out1 (i_data_offset i) e) as [target| |]; cbn [bind] in *; try discriminate.
  destruct (dispatch_transform show c v t f texture target st) as [[[[h|er] target1] st1]| |]; cbn [bind] in *; try discriminate.
  unfold range in R2. destruct ((0 <=? i_data_offset i) && (i_data_offset i <=? e) && (e <=? zlen x)) eqn:R3; [|discriminate].
  destruct (e <? zlen x).
  - destruct (range x e (zlen x)) as [leftover| |]; cbn [bind] in *; try discriminate.
    destruct (copy_range _ _ _ leftover) as [out2| |]; cbn [bind] in *; try discriminate.
    exists [Computing (i_data_offset i) target1; Copying e leftover], h. split; [reflexivity|]. split; [|lia]. repeat constructor; cbn [beyond]; lia.
  - cbn [bind] in *. exists [Computing (i_data_offset i) target1], h. split; [reflexivity|]. split; [|lia]. repeat constructor; cbn [beyond]; lia.
Qed.
End Trace.

(** ** The first four bytes *)
Definition same4 (a b : list byte) : Prop := forall i, 0 <= i < 4 -> znth a i = znth b i.
Lemma same4_magic : forall a b, same4 a b -> has_magic a = has_magic b.
Proof. intros a b H. unfold has_magic, word. rewrite !Z.add_0_l, (H 0), (H 1), (H 2), (H 3) by lia. reflexivity. Qed.
Lemma splice_front : forall (l d : list byte) a i, 0 <= i < a -> a <= zlen l -> znth (splice l a d) i = znth l i.
Proof.
  intros l d a i H L. unfold znth, splice, zlen in *. rewrite app_nth1 by (rewrite firstn_length; lia).
  rewrite <- (firstn_skipn (Z.to_nat a) l) at 2. rewrite app_nth1 by (rewrite firstn_length; lia). reflexivity.
Qed.
Lemma znth_beyond : forall (l : list byte) i, zlen l <= i -> znth l i = x00.
Proof. intros l i H. unfold znth, zlen in *. apply nth_overflow. lia. Qed.
Lemma middle_front : forall w out z, beyond w -> 4 <= zlen out -> middle w out z -> same4 z out.
Proof.
  intros w out z B L (Lz & M) i Hi. destruct w as [a d|a d|a d]; cbn [beyond] in B; [| |destruct B].
  - destruct (M i ltac:(lia)) as [Q|Q]; [exact Q|]. rewrite Q. destruct (Z.le_gt_cases a (zlen out)); [apply splice_front; lia|].
    unfold znth, splice, zlen in *. rewrite firstn_all2 by lia. rewrite app_nth1 by lia. reflexivity.
  - apply M. lia.
Qed.
Lemma written_front : forall w out, beyond w -> 4 <= zlen out -> same4 (written w out) out /\ 4 <= zlen (written w out).
Proof.
  intros w out B L. destruct w as [a d|a d|a d]; cbn [beyond] in B; [| |destruct B]; cbn [written]; split;
  try (unfold zlen, splice in *; rewrite !app_length, firstn_length; lia);
  intros i Hi; unfold znth, splice, zlen in *; (rewrite app_nth1 by (rewrite firstn_length; lia));
  rewrite <- (firstn_skipn (Z.to_nat a) out) at 2; rewrite app_nth1 by (rewrite firstn_length; lia); reflexivity.
Qed.
Lemma same4_trans : forall a b d, same4 a b -> same4 b d -> same4 a d.
Proof. intros a b d H1 H2 i Hi. rewrite (H1 i Hi). apply H2, Hi. Qed.
Lemma left_front : forall ws h out z, Forall beyond ws -> 4 <= zlen out -> left_behind (ws ++ [Storing 0 h]) out z ->
  same4 z out \/ z = fold_left (fun o w => written w o) (ws ++ [Storing 0 h]) out.
Proof.
  intros ws h out z B. revert out. induction B as [|w ws B1 B IH]; intros out L H; cbn [app] in H |- *.
  - inversion H as [? ?|? ? ? ? M|? ? ? ? M]; subst.
    + left. intros i _. reflexivity.
    + destruct M as (_ & ->). left. intros i _. reflexivity.
    + inversion M; subst. right. reflexivity.
  - inversion H as [? ?|? ? ? ? M|? ? ? ? M]; subst.
    + left. intros i _. reflexivity.
    + left. exact (middle_front _ _ _ B1 L M).
    + destruct (written_front w out B1 L) as (S & L1). destruct (IH _ L1 M) as [Q|Q].
      * left. exact (same4_trans _ _ _ Q S).
      * right. exact Q.
Qed.

(** A file whose first byte is that of the DDS magic is not restored. *)
Lemma magic_first : forall x, has_magic x = true -> znth x 0 = x44.
Proof.
  intros x M. unfold has_magic in M. apply Z.eqb_eq in M. change (four "DDS ") with 542327876 in M. unfold word, u32le in M.
  pose proof (b2z_bound (znth x 0)). pose proof (b2z_bound (znth x (0 + 1))). pose proof (b2z_bound (znth x (0 + 2))). pose proof (b2z_bound (znth x (0 + 3))).
  apply b2z_inj. change (b2z x44) with 68. lia.
Qed.
Lemma first_format : forall x, znth x 0 = x44 -> header_format (read_from_ptr x 0) = Some FBc6H.
Proof.
  intros x E. unfold header_format, format_raw, bit_range. rewrite Z.shiftr_0_r. change (3 - 0 + 1) with 4. rewrite Z.land_ones by lia.
  unfold read_from_ptr. rewrite E. unfold u32le. change (b2z x44) with 68. set (a := b2z _). set (b := b2z _). set (d := b2z _). change (2 ^ 4) with 16.
  replace ((68 + 256 * a + 65536 * b + 16777216 * d) mod 16) with 4 by lia. reflexivity.
Qed.
Lemma bc6h_refused : forall c h a b u tg, header_format h = Some FBc6H -> dispatch_untransform c h a b <> Ok (ROk u, tg).
Proof. intros c h a b u tg M. unfold dispatch_untransform. rewrite M. cbv zeta. cbv iota. destruct (zlen b <? zlen a); intros Q; inversion Q. Qed.
Lemma first_not_restored : forall (c : cfg) (v : env) (x out o : list byte), znth x 0 = x44 -> dds_untransform c v x out <> Ok (ROk tt, o).
Proof.
  intros c v x out o M E. unfold dds_untransform in E.
  destruct (zlen x <? 4); [discriminate|]. destruct (zlen out <? zlen x); [discriminate|].
  apply first_format in M. set (h := read_from_ptr x 0) in *.
  repeat match goal with
  | E : (do _ <- ?e ;; _) = _ |- _ => lazymatch e with dispatch_untransform _ _ _ _ => fail | _ => destruct e; cbn [bind] in E; try discriminate end
  | E : match ?a with Some _ => _ | None => _ end = _ |- _ => destruct a; try discriminate
  | E : (if ?a then Ok (RErr _, _) else _) = _ |- _ => destruct a; try discriminate
  end.
  match type of E with (do _ <- dispatch_untransform c h ?a ?b ;; _) = _ =>
    pose proof (fun u tg => bc6h_refused c h a b u tg M) as N;
    destruct (dispatch_untransform c h a b) as [[[u|e] tg]| |]; cbn [bind] in E; try discriminate; exact (N u tg eq_refl) end.
Qed.

Section Left.
Context {St Er : Type}.
Variables (show : Er -> string) (c : cfg) (v : env).
Lemma stopped_transform : forall (t : bundle St Er) x out st y st' i ws z, parse_dds (c_debug c) x = Ok (Some i) ->
  dds_transform_bundle show c v t x out st = Ok (ROk tt, y, st') -> dds_transform_writes show c v t x out st = Ok ws -> left_behind ws out z ->
  z = y \/ znth z 0 = x44 \/
  (zlen z = zlen out /\ (forall j, 0 <= j -> znth z j = znth out j \/ znth z j = znth x j /\ 0 <= j < i_data_offset i)).
Proof.
  intros t x out st y st' i ws z P H HW LB. destruct (writes_shape show c v t x out st y st' i P H) as (mid & h & W & B & Lx & Ho).
  destruct (transform_writes_ok show c v t x out st _ y st' H) as (ws' & W' & Y). rewrite W in W', HW. injection W' as <-. injection HW as <-.
  pose proof P as P0. apply parse_dds_facts in P0. destruct P0 as (M & P0). destruct (parse_facts _ _ _ P0) as (_ & _ & _ & _ & Hn & Ho2 & Hx).
  assert (LS : zlen (slice x 0 (i_data_offset i)) = i_data_offset i) by (apply zlen_slice; lia).
  assert (SP : forall j, 0 <= j -> znth (splice out 0 (slice x 0 (i_data_offset i))) j = if j <? i_data_offset i then znth x j else znth out j).
  { intros j Hj. rewrite splice_at_0. unfold znth, zlen in *. destruct (j <? i_data_offset i) eqn:E.
    - rewrite app_nth1 by lia. unfold slice. change (Z.to_nat 0) with 0%nat. cbn [skipn].
      rewrite <- (firstn_skipn (Z.to_nat (i_data_offset i)) x) at 2. rewrite app_nth1 by (rewrite firstn_length; lia). reflexivity.
    - rewrite app_nth2 by lia. rewrite nth_skipn. f_equal. lia. }
  remember (mid ++ [Storing 0 (u32_bytes h)]) as rest eqn:ER.
  inversion LB as [? ?|? ? ? ? Q|? ? ? ? Q]; subst.
  - right; right. split; [reflexivity|]. auto.
  - right; right. destruct Q as (Lz & Q). split; [exact Lz|]. intros j Hj. destruct (Q j Hj) as [E|E]; [left; exact E|].
    rewrite (SP j Hj) in E. destruct (j <? i_data_offset i) eqn:J; [right; split; [exact E|lia]|left; exact E].
  - assert (L4 : 4 <= zlen (splice out 0 (slice x 0 (i_data_offset i)))) by (rewrite zlen_splice; lia).
    destruct (left_front mid (u32_bytes h) _ z B L4 Q) as [S|S].
    + right; left. rewrite (S 0) by lia. cbn [written]. rewrite SP by lia. replace (0 <? i_data_offset i) with true by lia. apply magic_first, M.
    + left. exact S.
Qed.
Lemma stopped_in_order : forall (t : bundle St Er) x out st y st' i ws z, parse_dds (c_debug c) x = Ok (Some i) ->
  dds_transform_bundle show c v t x out st = Ok (ROk tt, y, st') -> dds_transform_writes show c v t x out st = Ok ws -> left_in_order ws out z ->
  z = y \/ z = out \/ znth z 0 = x44.
Proof.
  intros t x out st y st' i ws z P H HW LB. destruct (writes_shape show c v t x out st y st' i P H) as (mid & h & W & B & Lx & Ho).
  destruct (transform_writes_ok show c v t x out st _ y st' H) as (ws' & W' & Y). rewrite W in W', HW. injection W' as <-. injection HW as <-.
  pose proof P as P0. apply parse_dds_facts in P0. destruct P0 as (M & P0). destruct (parse_facts _ _ _ P0) as (_ & _ & _ & _ & Hn & Ho2 & Hx).
  assert (LS : zlen (slice x 0 (i_data_offset i)) = i_data_offset i) by (apply zlen_slice; lia).
  assert (F0 : exists r, slice x 0 (i_data_offset i) = x44 :: r).
  { unfold slice. change (Z.to_nat 0) with 0%nat. cbn [skipn]. destruct x as [|a x]; [cbn in Hx; lia|]. exists (firstn (Z.to_nat (i_data_offset i) - 1) x).
    replace (Z.to_nat (i_data_offset i)) with (S (Z.to_nat (i_data_offset i) - 1)) at 1 by lia. cbn [firstn]. f_equal. apply magic_first in M. exact M. }
  destruct F0 as (r & F0). remember (mid ++ [Storing 0 (u32_bytes h)]) as rest eqn:ER.
  inversion LB as [? ?|? ? ? ? Q|? ? ? ? Q]; subst.
  - right; left. reflexivity.
  - destruct Q as (k & ->). right. rewrite F0. destruct k as [|k]; [left; rewrite splice_at_0; reflexivity|right; rewrite splice_at_0; reflexivity].
  - assert (L4 : 4 <= zlen (splice out 0 (slice x 0 (i_data_offset i)))) by (rewrite zlen_splice; lia).
    assert (G : znth (splice out 0 (slice x 0 (i_data_offset i))) 0 = x44) by (rewrite splice_at_0, F0; reflexivity).
    cbn [written] in Q.
    assert (Q1 : forall o1, znth o1 0 = x44 -> 4 <= zlen o1 -> left_in_order (mid ++ [Storing 0 (u32_bytes h)]) o1 z ->
      z = fold_left (fun o w => written w o) (mid ++ [Storing 0 (u32_bytes h)]) o1 \/ znth z 0 = x44).
    { clear - B. induction B as [|w ws B1 B IH]; intros o1 G L4 Q; cbn [app] in Q |- *.
      - inversion Q as [? ?|? ? ? ? M|? ? ? ? M]; subst; [right; exact G|destruct M as (_ & ->); right; exact G|]. inversion M; subst. left. reflexivity.
      - inversion Q as [? ?|? ? ? ? M|? ? ? ? M]; subst; [right; exact G| |].
        + right. destruct w as [a d|a d|a d]; cbn [beyond] in B1; [| |destruct B1].
          * destruct M as (k & ->). rewrite <- G. apply (written_front (Copying a (firstn k d)) o1); [exact B1|exact L4|lia].
          * rewrite (middle_front (Computing a d) o1 z B1 L4 M 0) by lia. exact G.
        + destruct (written_front w o1 B1 L4) as (S & L1). apply IH; [rewrite (S 0) by lia; exact G|exact L1|exact M]. }
    destruct (Q1 _ G L4 Q) as [E|E]; [left; exact E|right; right; exact E].
Qed.
End Left.


Section Failed.
Context {St Er : Type}.
Variables (show : Er -> string) (c : cfg) (v : env).
Lemma failed_transform : forall (t : bundle St Er) x out st e y st', 
  dds_transform_bundle show c v t x out st = Ok (RErr e, y, st') -> y = out \/ znth y 0 = x44.
Proof.
  intros t x out st e y st' H. unfold dds_transform_bundle in H.
  destruct (zlen out <? zlen x) eqn:L; [injection H as _ <- _; left; reflexivity|].
  destruct (parse_dds (c_debug c) x) as [[i|]| |] eqn:P; cbn [bind] in H; try discriminate; [|injection H as _ <- _; left; reflexivity].
  apply parse_dds_facts in P. destruct P as (M & P). destruct (parse_facts _ _ _ P) as (_ & _ & _ & _ & Hn & Ho & Hx).
  destruct (usize_add (c_debug c) v (i_data_offset i) (i_data_length i)) as [en| |]; cbn [bind] in *; try discriminate.
  destruct (zlen x <? en); [injection H as _ <- _; left; reflexivity|].
  unfold range at 1 in H. destruct ((0 <=? 0) && (0 <=? i_data_offset i) && (i_data_offset i <=? zlen x)) eqn:R1; cbn [bind] in *; try discriminate.
  rewrite Z.sub_0_r in H. destruct (copy_range out 0 (i_data_offset i) (slice x 0 (i_data_offset i))) as [out1| |] eqn:C1; cbn [bind] in *; try discriminate. apply copy_range_ok in C1.
  assert (LS : zlen (slice x 0 (i_data_offset i)) = i_data_offset i) by (apply zlen_slice; lia).
  assert (G : znth out1 0 = x44 /\ 4 <= zlen out1).
  { subst out1. split; [|rewrite zlen_splice; lia]. apply magic_first in M. rewrite <- M. rewrite splice_at_0. unfold slice. change (Z.to_nat 0) with 0%nat. cbn [skipn].
    destruct x as [|a x]; [cbn in Hx; lia|]. replace (Z.to_nat (i_data_offset i)) with (S (Z.to_nat (i_data_offset i) - 1)) by lia. reflexivity. }
  destruct (dds_format_to_transform_format (i_format i) false) as [f|er]; [|injection H as _ <- _; right; apply G].
  destruct (range x (i_data_offset i) en) as [texture| |]; cbn [bind] in *; try discriminate.
  destruct (range out1 (i_data_offset i) en) as [target| |]; cbn [bind] in *; try discriminate.
  destruct (dispatch_transform show c v t f texture target st) as [[[[h|er] target1] st1]| |]; cbn [bind] in *; try discriminate.
  - destruct (if en <? zlen x then _ else _) as [o2| |]; cbn [bind] in H; discriminate.
  - injection H as _ <- _. right. destruct G as (G & L4). rewrite <- G. apply (written_front (Computing (i_data_offset i) target1) out1); [cbn [beyond]; lia|exact L4|lia].
Qed.
End Failed.

(** ** Running the tool again *)
Lemma stopped_inputs : forall (B W : Type) utf8 I O entries before now, apart I O -> Forall file_name O -> files_below I entries ->
  stopped_runs (B := B) (W := W) utf8 I O entries before now -> forall p, In p entries -> now (render p) = before (render p).
Proof.
  intros B W utf8 I O entries before now A N F R. induction R as [|now cmd hs s R IH Rs]; intros p Hp; [reflexivity|].
  destruct (explained utf8 cmd hs I O entries now s A N F Rs) as (_ & E & _). rewrite (E p Hp). apply IH, Hp.
Qed.
Lemma rerun : forall (B W : Type) utf8 (cmd : command B) (hs : list (handler B W)) I O entries before now s,
  apart I O -> Forall file_name O -> files_below I entries -> stopped_runs (B := B) (W := W) utf8 I O entries before now -> reachable utf8 cmd hs I O entries now s ->
  forall r ph, In (I ++ r, ph) (s_tasks s) -> succeeded ph ->
  exists x h d w y w1, before (render (I ++ r)) = Some x /\ first_accepting utf8 cmd hs x (I ++ r) h /\ zlen d = zlen x /\
    work cmd h x d w = Ok (ROk tt, y, w1) /\ s_files s (render (O ++ r)) = Some y.
Proof.
  intros B W utf8 cmd hs I O entries before now s A N F R Rs r ph Hin Hs.
  destruct (explained utf8 cmd hs I O entries now s A N F Rs) as (_ & _ & E1 & E2 & _).
  assert (Hp : In (I ++ r) entries) by (rewrite <- E1; apply in_map_iff; exists (I ++ r, ph); split; [reflexivity|exact Hin]).
  pose proof (stopped_inputs B W utf8 I O entries before now A N F R _ Hp) as Q.
  specialize (E2 r ph Hin). destruct ph as [| |?|? ? ?|? ? ?|? ? ?|? ? ? ? ?|[?|?]|?| |]; try destruct Hs; cbn [story] in E2; destruct E2 as (_ & x & h & d & w & y & w1 & E3 & E4);
  exists x, h, d, w, y, w1; (split; [rewrite <- Q; exact E3|exact E4]).
Qed.
