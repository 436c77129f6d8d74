(** What a stopped transform leaves behind on a big-endian machine (Proofs/InterruptedFacts.v, Proofs/KilledFacts.v). *)
From Verif Require Import Base.Bytes Base.Res Model.Color565 Model.Kernel Model.Transform Model.Auto Model.Builders Model.Embed Model.Bundle Model.Dds Model.Handlers Model.Cli
  Model.Interrupted Model.BigEndian Model.BeTransform Model.BeFiles Model.EndianTool Model.BeInterrupted Spec.Layout Spec.Files Spec.Dds Spec.Cli Spec.BigEndian Spec.BeFiles Spec.Interrupted Spec.BeInterrupted
  Proofs.DdsFacts Proofs.DdsHandler Proofs.HandlersFacts Proofs.CliFacts Proofs.CliDds Proofs.InterruptedFacts Proofs.KilledFacts Proofs.BeDdsHandler Proofs.BeCliDds.
From Coq Require Import ZifyBool ZifyNat.
Open Scope list_scope.
Open Scope Z_scope.

Section Trace.
Context {St Er : Type}.
Variables (show : Er -> string) (c : cfg) (v : env).


Lemma be_transform_writes_ok : forall (t : bundle St Er) x out st r y st', be_dds_transform_bundle show c v t x out st = Ok (r, y, st') ->
  exists ws, be_dds_transform_writes show c v t x out st = Ok ws /\ y = fold_left (fun o w => written w o) ws out.
Proof.
  intros t x out st r y st' H. unfold be_dds_transform_bundle, be_dds_transform_writes in *.
  destruct (zlen out <? zlen x); [injection H as _ <- _; exists []; split; reflexivity|].
  destruct (parse_dds (c_debug c) x) as [[i|]| |]; cbn [bind] in *; try discriminate; [|injection H as _ <- _; exists []; split; reflexivity].
  destruct (usize_add (c_debug c) v (i_data_offset i) (i_data_length i)) as [e| |]; cbn [bind] in *; try discriminate.
  destruct (zlen x <? e); [injection H as _ <- _; exists []; split; reflexivity|].
  destruct (range x 0 (i_data_offset i)) as [head| |]; cbn [bind] in *; try discriminate.
  destruct (copy_range out 0 (i_data_offset i) head) as [out1| |] eqn:C1; cbn [bind] in *; try discriminate. apply copy_range_ok in C1.
  destruct (dds_format_to_transform_format (i_format i) false) as [f|er]; [|injection H as _ <- _; eexists; split; [reflexivity|exact C1]].
  destruct (range x (i_data_offset i) e) as [texture| |]; cbn [bind] in *; try discriminate.
  destruct (range out1 (i_data_offset i) e) as [target| |]; cbn [bind] in *; try discriminate.
  destruct (be_dispatch_transform show c v t f texture target st) as [[[[h|er] target1] st1]| |]; cbn [bind] in *; try discriminate.
  2:{ injection H as _ <- _. eexists. split; [reflexivity|]. cbn [fold_left written]. rewrite <- C1. reflexivity. }
  destruct (e <? zlen x).
  - destruct (range x e (zlen x)) as [leftover| |]; cbn [bind] in *; try discriminate.
    destruct (copy_range (splice out1 (i_data_offset i) target1) e (zlen (splice out1 (i_data_offset i) target1)) leftover) as [out2| |] eqn:C2; cbn [bind] in *; try discriminate.
    apply copy_range_ok in C2. injection H as _ <- _. eexists. split; [reflexivity|]. cbn [fold_left written app]. rewrite <- C1, <- C2. reflexivity.
  - cbn [bind] in *. injection H as _ <- _. eexists. split; [reflexivity|]. cbn [fold_left written app]. rewrite <- C1. reflexivity.
Qed.
Lemma be_untransform_writes_ok : forall x out r y, be_dds_untransform c v x out = Ok (r, y) ->
  exists ws, be_dds_untransform_writes c v x out = Ok ws /\ y = fold_left (fun o w => written w o) ws out.
Proof.
  intros x out r y H. unfold be_dds_untransform, be_dds_untransform_writes in *.
  destruct (zlen x <? 4); [injection H as _ <-; exists []; split; reflexivity|].
  destruct (zlen out <? zlen x); [injection H as _ <-; exists []; split; reflexivity|].
  destruct (parse_dds_ignore_magic (c_debug c) x) as [[i|]| |]; cbn [bind] in *; try discriminate; [|injection H as _ <-; exists []; split; reflexivity].
  destruct (usize_add (c_debug c) v (i_data_offset i) (i_data_length i)) as [e| |]; cbn [bind] in *; try discriminate.
  destruct (zlen x <? e); [injection H as _ <-; exists []; split; reflexivity|].
  destruct (copy_range out 0 4 (u32_bytes DDS_MAGIC)) as [out0| |] eqn:C0; cbn [bind] in *; try discriminate. apply copy_range_ok in C0.
  destruct (range x 4 (i_data_offset i)) as [head| |]; cbn [bind] in *; try discriminate.
  destruct (copy_range out0 4 (i_data_offset i) head) as [out1| |] eqn:C1; cbn [bind] in *; try discriminate. apply copy_range_ok in C1.
  destruct (range x (i_data_offset i) e) as [texture| |]; cbn [bind] in *; try discriminate.
  destruct (range out1 (i_data_offset i) e) as [target| |]; cbn [bind] in *; try discriminate.
  destruct (be_dispatch_untransform c (read_from_ptr x 0) texture target) as [[[h|er] target1]| |]; cbn [bind] in *; try discriminate.
  2:{ injection H as _ <-. eexists. split; [reflexivity|]. cbn [fold_left written]. rewrite <- C0, <- C1. reflexivity. }
  destruct (e <? zlen x).
  - destruct (range x e (zlen x)) as [leftover| |]; cbn [bind] in *; try discriminate.
    destruct (copy_range (splice out1 (i_data_offset i) target1) e (zlen (splice out1 (i_data_offset i) target1)) leftover) as [out2| |] eqn:C2; cbn [bind] in *; try discriminate.
    apply copy_range_ok in C2. injection H as _ <-. eexists. split; [reflexivity|]. cbn [fold_left written app]. rewrite <- C0, <- C1, <- C2. reflexivity.
  - cbn [bind] in *. injection H as _ <-. eexists. split; [reflexivity|]. cbn [fold_left written app]. rewrite <- C0, <- C1. reflexivity.
Qed.

(** The writes of a successful transform: the headers, then writes behind the
    first four bytes, then the embedded header. *)
Lemma be_writes_shape : forall (t : bundle St Er) x out st y st' i, parse_dds (c_debug c) x = Ok (Some i) ->
  be_dds_transform_bundle show c v t x out st = Ok (ROk tt, y, st') ->
  exists ws h, be_dds_transform_writes show c v t x out st = Ok (Copying 0 (slice x 0 (i_data_offset i)) :: ws ++ [Storing 0 (u32_bytes h)]) /\
    Forall beyond ws /\ zlen x <= zlen out /\ i_data_offset i <= zlen x.
Proof.
  intros t x out st y st' i P H. unfold be_dds_transform_bundle, be_dds_transform_writes in *. rewrite P in *.
  destruct (parse_facts _ _ _ (proj2 (parse_dds_facts _ _ _ P))) as (_ & _ & _ & _ & Hn & Ho & Hx).
  destruct (zlen out <? zlen x) eqn:L; [discriminate|]. cbn [bind] in *.
  destruct (usize_add (c_debug c) v (i_data_offset i) (i_data_length i)) as [e| |] eqn:U; cbn [bind] in *; try discriminate.
  destruct (zlen x <? e); [discriminate|].
  unfold range at 1 in H. unfold range at 1. destruct ((0 <=? 0) && (0 <=? i_data_offset i) && (i_data_offset i <=? zlen x)) eqn:R1; cbn [bind] in *; try discriminate.
  rewrite Z.sub_0_r in *.
  destruct (copy_range out 0 (i_data_offset i) (slice x 0 (i_data_offset i))) as [out1| |]; cbn [bind] in *; try discriminate.
  destruct (dds_format_to_transform_format (i_format i) false) as [f|er]; [|discriminate].
  destruct (range x (i_data_offset i) e) as [texture| |] eqn:R2; cbn [bind] in *; try discriminate.
  destruct (range out1 (i_data_offset i) e) as [target| |]; cbn [bind] in *; try discriminate.
  destruct (be_dispatch_transform show c v t f texture target st) as [[[[h|er] target1] st1]| |]; cbn [bind] in *; try discriminate.
  unfold range in R2. destruct ((0 <=? i_data_offset i) && (i_data_offset i <=? e) && (e <=? zlen x)) eqn:R3; [|discriminate].
  destruct (e <? zlen x).
  - destruct (range x e (zlen x)) as [leftover| |]; cbn [bind] in *; try discriminate.
    destruct (copy_range _ _ _ leftover) as [out2| |]; cbn [bind] in *; try discriminate.
    exists [Computing (i_data_offset i) target1; Copying e leftover], h. split; [reflexivity|]. split; [|lia]. repeat constructor; cbn [beyond]; lia.
  - cbn [bind] in *. exists [Computing (i_data_offset i) target1], h. split; [reflexivity|]. split; [|lia]. repeat constructor; cbn [beyond]; lia.
Qed.
End Trace.

Lemma be_bc6h_refused : forall c h a b u tg, header_format h = Some FBc6H -> be_dispatch_untransform c h a b <> Ok (ROk u, tg).
Proof. intros c h a b u tg M. unfold be_dispatch_untransform. rewrite M. cbv zeta. cbv iota. destruct (zlen b <? zlen a); intros Q; inversion Q. Qed.
Lemma be_first_not_restored : forall (c : cfg) (v : env) (x out o : list byte), znth x 0 = x44 -> be_dds_untransform c v x out <> Ok (ROk tt, o).
Proof.
  intros c v x out o M E. unfold be_dds_untransform in E.
  destruct (zlen x <? 4); [discriminate|]. destruct (zlen out <? zlen x); [discriminate|].
  apply first_format in M. set (h := read_from_ptr x 0) in *.
  repeat match goal with
  | E : (do _ <- ?e ;; _) = _ |- _ => lazymatch e with be_dispatch_untransform _ _ _ _ => fail | _ => destruct e; cbn [bind] in E; try discriminate end
  | E : match ?a with Some _ => _ | None => _ end = _ |- _ => destruct a; try discriminate
  | E : (if ?a then Ok (RErr _, _) else _) = _ |- _ => destruct a; try discriminate
  end.
  match type of E with (do _ <- be_dispatch_untransform c h ?a ?b ;; _) = _ =>
    pose proof (fun u tg => be_bc6h_refused c h a b u tg M) as N;
    destruct (be_dispatch_untransform c h a b) as [[[u|e] tg]| |]; cbn [bind] in E; try discriminate; exact (N u tg eq_refl) end.
Qed.

Section Left.
Context {St Er : Type}.
Variables (show : Er -> string) (c : cfg) (v : env).
Lemma be_stopped_transform : forall (t : bundle St Er) x out st y st' i ws z, parse_dds (c_debug c) x = Ok (Some i) ->
  be_dds_transform_bundle show c v t x out st = Ok (ROk tt, y, st') -> be_dds_transform_writes show c v t x out st = Ok ws -> left_behind ws out z ->
  z = y \/ znth z 0 = x44 \/
  (zlen z = zlen out /\ (forall j, 0 <= j -> znth z j = znth out j \/ znth z j = znth x j /\ 0 <= j < i_data_offset i)).
Proof.
  intros t x out st y st' i ws z P H HW LB. destruct (be_writes_shape show c v t x out st y st' i P H) as (mid & h & W & B & Lx & Ho).
  destruct (be_transform_writes_ok show c v t x out st _ y st' H) as (ws' & W' & Y). rewrite W in W', HW. injection W' as <-. injection HW as <-.
  pose proof P as P0. apply parse_dds_facts in P0. destruct P0 as (M & P0). destruct (parse_facts _ _ _ P0) as (_ & _ & _ & _ & Hn & Ho2 & Hx).
  assert (LS : zlen (slice x 0 (i_data_offset i)) = i_data_offset i) by (apply zlen_slice; lia).
  assert (SP : forall j, 0 <= j -> znth (splice out 0 (slice x 0 (i_data_offset i))) j = if j <? i_data_offset i then znth x j else znth out j).
  { intros j Hj. rewrite splice_at_0. unfold znth, zlen in *. destruct (j <? i_data_offset i) eqn:E.
    - rewrite app_nth1 by lia. unfold slice. change (Z.to_nat 0) with 0%nat. cbn [skipn].
      rewrite <- (firstn_skipn (Z.to_nat (i_data_offset i)) x) at 2. rewrite app_nth1 by (rewrite firstn_length; lia). reflexivity.
    - rewrite app_nth2 by lia. rewrite nth_skipn. f_equal. lia. }
  remember (mid ++ [Storing 0 (u32_bytes h)]) as rest eqn:ER.
  inversion LB as [? ?|? ? ? ? Q|? ? ? ? Q]; subst.
  - right; right. split; [reflexivity|]. auto.
  - right; right. destruct Q as (Lz & Q). split; [exact Lz|]. intros j Hj. destruct (Q j Hj) as [E|E]; [left; exact E|].
    rewrite (SP j Hj) in E. destruct (j <? i_data_offset i) eqn:J; [right; split; [exact E|lia]|left; exact E].
  - assert (L4 : 4 <= zlen (splice out 0 (slice x 0 (i_data_offset i)))) by (rewrite zlen_splice; lia).
    destruct (left_front mid (u32_bytes h) _ z B L4 Q) as [S|S].
    + right; left. rewrite (S 0) by lia. cbn [written]. rewrite SP by lia. replace (0 <? i_data_offset i) with true by lia. apply magic_first, M.
    + left. exact S.
Qed.
Lemma be_stopped_in_order : forall (t : bundle St Er) x out st y st' i ws z, parse_dds (c_debug c) x = Ok (Some i) ->
  be_dds_transform_bundle show c v t x out st = Ok (ROk tt, y, st') -> be_dds_transform_writes show c v t x out st = Ok ws -> left_in_order ws out z ->
  z = y \/ z = out \/ znth z 0 = x44.
Proof.
  intros t x out st y st' i ws z P H HW LB. destruct (be_writes_shape show c v t x out st y st' i P H) as (mid & h & W & B & Lx & Ho).
  destruct (be_transform_writes_ok show c v t x out st _ y st' H) as (ws' & W' & Y). rewrite W in W', HW. injection W' as <-. injection HW as <-.
  pose proof P as P0. apply parse_dds_facts in P0. destruct P0 as (M & P0). destruct (parse_facts _ _ _ P0) as (_ & _ & _ & _ & Hn & Ho2 & Hx).
  assert (LS : zlen (slice x 0 (i_data_offset i)) = i_data_offset i) by (apply zlen_slice; lia).
  assert (F0 : exists r, slice x 0 (i_data_offset i) = x44 :: r).
  { unfold slice. change (Z.to_nat 0) with 0%nat. cbn [skipn]. destruct x as [|a x]; [cbn in Hx; lia|]. exists (firstn (Z.to_nat (i_data_offset i) - 1) x).
    replace (Z.to_nat (i_data_offset i)) with (S (Z.to_nat (i_data_offset i) - 1)) at 1 by lia. cbn [firstn]. f_equal. apply magic_first in M. exact M. }
  destruct F0 as (r & F0). remember (mid ++ [Storing 0 (u32_bytes h)]) as rest eqn:ER.
  inversion LB as [? ?|? ? ? ? Q|? ? ? ? Q]; subst.
  - right; left. reflexivity.
  - destruct Q as (k & ->). right. rewrite F0. destruct k as [|k]; [left; rewrite splice_at_0; reflexivity|right; rewrite splice_at_0; reflexivity].
  - assert (L4 : 4 <= zlen (splice out 0 (slice x 0 (i_data_offset i)))) by (rewrite zlen_splice; lia).
    assert (G : znth (splice out 0 (slice x 0 (i_data_offset i))) 0 = x44) by (rewrite splice_at_0, F0; reflexivity).
    cbn [written] in Q.
    assert (Q1 : forall o1, znth o1 0 = x44 -> 4 <= zlen o1 -> left_in_order (mid ++ [Storing 0 (u32_bytes h)]) o1 z ->
      z = fold_left (fun o w => written w o) (mid ++ [Storing 0 (u32_bytes h)]) o1 \/ znth z 0 = x44).
    { clear - B. induction B as [|w ws B1 B IH]; intros o1 G L4 Q; cbn [app] in Q |- *.
      - inversion Q as [? ?|? ? ? ? M|? ? ? ? M]; subst; [right; exact G|destruct M as (_ & ->); right; exact G|]. inversion M; subst. left. reflexivity.
      - inversion Q as [? ?|? ? ? ? M|? ? ? ? M]; subst; [right; exact G| |].
        + right. destruct w as [a d|a d|a d]; cbn [beyond] in B1; [| |destruct B1].
          * destruct M as (k & ->). rewrite <- G. apply (written_front (Copying a (firstn k d)) o1); [exact B1|exact L4|lia].
          * rewrite (middle_front (Computing a d) o1 z B1 L4 M 0) by lia. exact G.
        + destruct (written_front w o1 B1 L4) as (S & L1). apply IH; [rewrite (S 0) by lia; exact G|exact L1|exact M]. }
    destruct (Q1 _ G L4 Q) as [E|E]; [left; exact E|right; right; exact E].
Qed.
End Left.


Section Failed.
Context {St Er : Type}.
Variables (show : Er -> string) (c : cfg) (v : env).
Lemma be_failed_transform : forall (t : bundle St Er) x out st e y st', 
  be_dds_transform_bundle show c v t x out st = Ok (RErr e, y, st') -> y = out \/ znth y 0 = x44.
Proof.
  intros t x out st e y st' H. unfold be_dds_transform_bundle in H.
  destruct (zlen out <? zlen x) eqn:L; [injection H as _ <- _; left; reflexivity|].
  destruct (parse_dds (c_debug c) x) as [[i|]| |] eqn:P; cbn [bind] in H; try discriminate; [|injection H as _ <- _; left; reflexivity].
  apply parse_dds_facts in P. destruct P as (M & P). destruct (parse_facts _ _ _ P) as (_ & _ & _ & _ & Hn & Ho & Hx).
  destruct (usize_add (c_debug c) v (i_data_offset i) (i_data_length i)) as [en| |]; cbn [bind] in *; try discriminate.
  destruct (zlen x <? en); [injection H as _ <- _; left; reflexivity|].
  unfold range at 1 in H. destruct ((0 <=? 0) && (0 <=? i_data_offset i) && (i_data_offset i <=? zlen x)) eqn:R1; cbn [bind] in *; try discriminate.
  rewrite Z.sub_0_r in H. destruct (copy_range out 0 (i_data_offset i) (slice x 0 (i_data_offset i))) as [out1| |] eqn:C1; cbn [bind] in *; try discriminate. apply copy_range_ok in C1.
  assert (LS : zlen (slice x 0 (i_data_offset i)) = i_data_offset i) by (apply zlen_slice; lia).
  assert (G : znth out1 0 = x44 /\ 4 <= zlen out1).
  { subst out1. split; [|rewrite zlen_splice; lia]. apply magic_first in M. rewrite <- M. rewrite splice_at_0. unfold slice. change (Z.to_nat 0) with 0%nat. cbn [skipn].
    destruct x as [|a x]; [cbn in Hx; lia|]. replace (Z.to_nat (i_data_offset i)) with (S (Z.to_nat (i_data_offset i) - 1)) by lia. reflexivity. }
  destruct (dds_format_to_transform_format (i_format i) false) as [f|er]; [|injection H as _ <- _; right; apply G].
  destruct (range x (i_data_offset i) en) as [texture| |]; cbn [bind] in *; try discriminate.
  destruct (range out1 (i_data_offset i) en) as [target| |]; cbn [bind] in *; try discriminate.
  destruct (be_dispatch_transform show c v t f texture target st) as [[[[h|er] target1] st1]| |]; cbn [bind] in *; try discriminate.
  - destruct (if en <? zlen x then _ else _) as [o2| |]; cbn [bind] in H; discriminate.
  - injection H as _ <- _. right. destruct G as (G & L4). rewrite <- G. apply (written_front (Computing (i_data_offset i) target1) out1); [cbn [beyond]; lia|exact L4|lia].
Qed.
End Failed.

Section Writes.
Context {St Er : Type}.
Variables (show : Er -> string) (c : cfg) (v : env).
Lemma be_writes_return : forall (t : bundle St Er) x out st ws, be_dds_transform_writes show c v t x out st = Ok ws ->
  exists r y st', be_dds_transform_bundle show c v t x out st = Ok (r, y, st').
Proof.
  intros t x out st ws H. unfold be_dds_transform_bundle, be_dds_transform_writes in *.
  destruct (zlen out <? zlen x); [eauto|].
  destruct (parse_dds (c_debug c) x) as [[i|]| |]; cbn [bind] in *; try discriminate; [|eauto].
  destruct (usize_add (c_debug c) v (i_data_offset i) (i_data_length i)) as [e| |]; cbn [bind] in *; try discriminate.
  destruct (zlen x <? e); [eauto|].
  destruct (range x 0 (i_data_offset i)) as [head| |]; cbn [bind] in *; try discriminate.
  destruct (copy_range out 0 (i_data_offset i) head) as [out1| |]; cbn [bind] in *; try discriminate.
  destruct (dds_format_to_transform_format (i_format i) false) as [f|er]; [|eauto].
  destruct (range x (i_data_offset i) e) as [texture| |]; cbn [bind] in *; try discriminate.
  destruct (range out1 (i_data_offset i) e) as [target| |]; cbn [bind] in *; try discriminate.
  destruct (be_dispatch_transform show c v t f texture target st) as [[[[h|er] target1] st1]| |]; cbn [bind] in *; try discriminate; [|eauto].
  destruct (e <? zlen x).
  - destruct (range x e (zlen x)) as [leftover| |]; cbn [bind] in *; try discriminate.
    destruct (copy_range (splice out1 (i_data_offset i) target1) e (zlen (splice out1 (i_data_offset i) target1)) leftover) as [out2| |]; cbn [bind] in *; try discriminate. eauto.
  - cbn [bind] in *. eauto.
Qed.
Lemma be_failed_left : forall (t : bundle St Er) x out st e y st' ws z, be_dds_transform_bundle show c v t x out st = Ok (RErr e, y, st') ->
  be_dds_transform_writes show c v t x out st = Ok ws -> left_in_order ws out z -> z = out \/ znth z 0 = x44.
Proof.
  intros t x out st e y st' ws z H W Q. unfold be_dds_transform_bundle, be_dds_transform_writes in *.
  assert (E0 : left_in_order [] out z -> z = out \/ znth z 0 = x44) by (intros N; inversion N; left; reflexivity).
  destruct (zlen out <? zlen x) eqn:L; [injection W as <-; exact (E0 Q)|].
  destruct (parse_dds (c_debug c) x) as [[i|]| |] eqn:P; cbn [bind] in *; try discriminate; [|injection W as <-; exact (E0 Q)].
  apply parse_dds_facts in P. destruct P as (M & P). destruct (parse_facts _ _ _ P) as (_ & _ & _ & _ & Hn & Ho & Hx).
  destruct (usize_add (c_debug c) v (i_data_offset i) (i_data_length i)) as [en| |]; cbn [bind] in *; try discriminate.
  destruct (zlen x <? en); [injection W as <-; exact (E0 Q)|].
  unfold range at 1 in H. unfold range at 1 in W. destruct ((0 <=? 0) && (0 <=? i_data_offset i) && (i_data_offset i <=? zlen x)) eqn:R1; cbn [bind] in *; try discriminate.
  rewrite Z.sub_0_r in *. destruct (copy_range out 0 (i_data_offset i) (slice x 0 (i_data_offset i))) as [out1| |] eqn:C1; cbn [bind] in *; try discriminate. apply copy_range_ok in C1.
  assert (F0 : exists r, slice x 0 (i_data_offset i) = x44 :: r).
  { unfold slice. change (Z.to_nat 0) with 0%nat. cbn [skipn]. destruct x as [|a x]; [cbn in Hx; lia|]. exists (firstn (Z.to_nat (i_data_offset i) - 1) x).
    replace (Z.to_nat (i_data_offset i)) with (S (Z.to_nat (i_data_offset i) - 1)) at 1 by lia. cbn [firstn]. f_equal. apply magic_first in M. exact M. }
  destruct F0 as (r & F0).
  assert (LS : zlen (slice x 0 (i_data_offset i)) = i_data_offset i) by (apply zlen_slice; lia).
  assert (G : znth out1 0 = x44 /\ 4 <= zlen out1) by (subst out1; split; [rewrite splice_at_0, F0; reflexivity|rewrite zlen_splice; lia]).
  assert (Head : forall ws1, left_in_order (Copying 0 (slice x 0 (i_data_offset i)) :: ws1) out z -> z = out \/ znth z 0 = x44 \/ left_in_order ws1 out1 z).
  { intros ws1 N. inversion N as [? ?|? ? ? ? N1|? ? ? ? N1]; subst; [left; reflexivity| |right; right; exact N1].
    destruct N1 as (k & ->). rewrite F0. destruct k as [|k]; [left; rewrite splice_at_0; reflexivity|right; left; rewrite splice_at_0; reflexivity]. }
  destruct (dds_format_to_transform_format (i_format i) false) as [f|er].
  2:{ injection W as <-. destruct (Head _ Q) as [A|[A|A]]; [left; exact A|right; exact A|]. inversion A; subst. right. apply G. }
  destruct (range x (i_data_offset i) en) as [texture| |]; cbn [bind] in *; try discriminate.
  destruct (range out1 (i_data_offset i) en) as [target| |]; cbn [bind] in *; try discriminate.
  destruct (be_dispatch_transform show c v t f texture target st) as [[[[h|er] target1] st1]| |]; cbn [bind] in *; try discriminate.
  { match type of H with (do _ <- ?q ;; _) = _ => destruct q as [o2| |] end; cbn [bind] in H; discriminate. }
  injection W as <-. destruct G as (G & L4). destruct (Head _ Q) as [A|[A|A]]; [left; exact A|right; exact A|]. right.
  assert (B1 : beyond (Computing (i_data_offset i) target1)) by (cbn [beyond]; lia).
  inversion A as [? ?|? ? ? ? N1|? ? ? ? N1]; subst z || subst; [exact G| |].
  - rewrite <- G. apply (middle_front _ _ _ B1 L4 N1). lia.
  - inversion N1; subst. rewrite <- G. apply (written_front _ _ B1 L4). lia.
Qed.
(** Wherever the handler is stopped. *)
Lemma be_left_cases : forall (t : bundle St Er) x out st ws z, be_dds_transform_writes show c v t x out st = Ok ws -> left_in_order ws out z ->
  z = out \/ znth z 0 = x44 \/ exists st', be_dds_transform_bundle show c v t x out st = Ok (ROk tt, z, st').
Proof.
  intros t x out st ws z W Q. destruct (be_writes_return t x out st ws W) as ([[]|e] & y & st' & H).
  - destruct (be_transform_parses _ _ _ _ _ _ _ _ _ H) as (i & P).
    destruct (be_stopped_in_order show c v t x out st y st' i ws z P H W Q) as [->|[->|E]]; [right; right; exists st'; exact H|left; reflexivity|right; left; exact E].
  - destruct (be_failed_left t x out st e y st' ws z H W Q) as [E|E]; [left; exact E|right; left; exact E].
Qed.
End Writes.

Section Tool.
Context {St Er : Type}.
Variables (utf8 : string -> bool) (show : Er -> string) (c : cfg) (v : env) (b : bundle St Er) (I O : components).
Lemma be_killed_run : forall entries before s, be_killed utf8 show c v b I O entries before s -> reachable utf8 (TransformDir b) (be_all_handlers show c v) I O entries before s.
Proof.
  intros entries before s K. induction K as [|s partial s1 K (n & IH) St1 _]; [exists 0%nat; constructor|].
  exists (if partial then n else S n). econstructor; [exact IH|exact St1].
Qed.
Lemma be_killed_ordered : forall entries before s, be_killed utf8 show c v b I O entries before s -> be_in_order show c v b I O s.
Proof.
  intros entries before s K. destruct K as [|s partial s1 _ _ H]; [|exact H].
  intros r ph Hin. cbn [s_tasks start] in Hin. apply in_map_iff in Hin. destruct Hin as (q & E & _). injection E as _ <-. exact Logic.I.
Qed.
Lemma be_killed_outputs : forall entries before s r ph, cpu_ok c -> c_debug c = false -> 2 ^ 32 + 147 <= usize_max v ->
  apart I O -> Forall file_name O -> files_below I entries -> be_killed utf8 show c v b I O entries before s -> In (I ++ r, ph) (s_tasks s) ->
  let output := s_files s (render (O ++ r)) in
  output = before (render (O ++ r)) \/
  (exists x, before (render (I ++ r)) = Some x /\ output = Some (zeros (zlen x))) \/
  (exists x d w y w1, before (render (I ++ r)) = Some x /\ zlen d = zlen x /\ be_dds_transform_bundle show c v b x d w = Ok (ROk tt, y, w1) /\ output = Some y) \/
  (exists z, output = Some z /\ forall c2 v2 out o, be_dds_untransform c2 v2 z out <> Ok (ROk tt, o) /\ dds_untransform c2 v2 z out <> Ok (ROk tt, o)) \/
  (exists e, ph = Returned (RErr (CFile e))).
Proof.
  intros entries before s r ph K D U A N Bl R Hin. cbv zeta. pose proof (be_killed_run _ _ _ R) as RR. pose proof (be_killed_ordered _ _ _ R r ph Hin) as Od.
  destruct (explained _ _ _ _ _ _ _ _ A N Bl RR) as (_ & _ & _ & Sy & _). specialize (Sy _ _ Hin).
  assert (NU : ph <> Undefined) by (intros ->; refine (be_never_undefined utf8 show c v _ _ _ _ _ _ K ltac:(lia) A N Bl RR (I ++ r) Hin)).
  assert (NP : ph <> Panicked) by (intros ->; refine (be_never_panics utf8 show c v _ _ _ _ _ _ K ltac:(lia) _ A N Bl RR (I ++ r) Hin); intros p x _ _ Q; congruence).
  assert (Good : (exists x h d w y w1, before (render (I ++ r)) = Some x /\ first_accepting utf8 (TransformDir b) (be_all_handlers show c v) x (I ++ r) h /\ zlen d = zlen x /\
      work (TransformDir b) h x d w = Ok (ROk tt, y, w1) /\ s_files s (render (O ++ r)) = Some y) ->
    exists x d w y w1, before (render (I ++ r)) = Some x /\ zlen d = zlen x /\ be_dds_transform_bundle show c v b x d w = Ok (ROk tt, y, w1) /\ s_files s (render (O ++ r)) = Some y).
  { intros (x & h & d & w & y & w1 & Bx & Fa & Ld & Wk & Fy). pose proof (be_only_handler _ _ _ _ _ _ _ _ Fa) as ->.
    exists x, d, w, y, w1. split; [exact Bx|]. split; [exact Ld|]. split; [|exact Fy]. cbn [work] in Wk. rewrite slice_transform_id in Wk by exact Ld. exact Wk. }
  destruct ph as [| |n|n z rest|n z h|n z h|n z h d0 now|[n|[|e]]|n| |]; cbn [story] in Sy.
  - left. exact Sy.
  - left. exact Sy.
  - left. apply Sy.
  - left. apply Sy.
  - left. apply Sy.
  - right; left. exists z. split; [apply Sy|exact Od].
  - destruct Sy as (_ & Bx & _ & Ld & Fy & _). destruct Od as (Ed & w & ws & W & Q). destruct (be_left_cases show c v b z d0 w ws now W Q) as [E|[E|(w1 & E)]].
    + right; left. exists z. split; [exact Bx|]. rewrite Fy, E, Ed. reflexivity.
    + right; right; right; left. exists now. split; [exact Fy|]. intros c2 v2 out o. exact (conj (be_first_not_restored c2 v2 now out o E) (first_not_restored c2 v2 now out o E)).
    + right; right; left. exists z, d0, w, now, w1. split; [exact Bx|]. split; [exact Ld|]. split; [exact E|exact Fy].
  - right; right; left. apply Good, Sy.
  - left. exact Sy.
  - right; right; right; right. exists e. reflexivity.
  - right; right; left. apply Good, Sy.
  - destruct (NP eq_refl).
  - destruct (NU eq_refl).
Qed.
End Tool.

(** Restoring what a be_killed run left. *)
Lemma be_killed_restored : forall (St1 Er1 St2 Er2 : Type) (utf8 : string -> bool) (show1 : Er1 -> string) (show2 : Er2 -> string) (c1 c2 : cfg) (v1 v2 : env)
    (b : bundle St1 Er1) (I O R : components) (entries1 entries2 : list components) (fs1 fs2 : files)
    (s1 : state (B := bundle St1 Er1) (W := St1)) (s2 : state (B := bundle St2 Er2) (W := St2)) (r : components) (x : list byte) ph1 ph2,
  cpu_ok c1 -> cpu_ok c2 -> c_debug c1 = false -> c_debug c2 = false -> 2 ^ 32 + 147 <= usize_max v1 -> zlen x <= usize_max v2 ->
  apart I O -> apart O R -> Forall file_name O -> Forall file_name R -> files_below I entries1 -> files_below O entries2 ->
  be_killed utf8 show1 c1 v1 b I O entries1 fs1 s1 -> fs1 (render (I ++ r)) = Some x -> In (I ++ r, ph1) (s_tasks s1) ->
  fs2 (render (O ++ r)) = s_files s1 (render (O ++ r)) -> reachable utf8 UntransformDir (be_all_handlers show2 c2 v2) O R entries2 fs2 s2 ->
  In (O ++ r, ph2) (s_tasks s2) -> succeeded ph2 ->
  s_files s2 (render (R ++ r)) = Some x \/
  fs2 (render (O ++ r)) = fs1 (render (O ++ r)) \/ fs2 (render (O ++ r)) = Some (zeros (zlen x)) \/ exists e, ph1 = Returned (RErr (CFile e)).
Proof.
  intros St1 Er1 St2 Er2 utf8 show1 show2 c1 c2 v1 v2 b I O R entries1 entries2 fs1 fs2 s1 s2 r x ph1 ph2 K1 K2 D1 D2 U1 U2 A1 A2 N1 N2 B1 B2 R1 F1 T1 F2 R2 T2 S2.
  destruct (explained _ _ _ _ _ _ _ _ A2 N2 B2 R2) as (_ & _ & _ & Sy2 & _). specialize (Sy2 _ _ T2).
  assert (G : exists x1 d y2, fs2 (render (O ++ r)) = Some x1 /\ zlen d = zlen x1 /\ be_dds_untransform c2 v2 x1 d = Ok (ROk tt, y2) /\ s_files s2 (render (R ++ r)) = Some y2).
  { assert (G0 : exists x1 h d w y w1, fs2 (render (O ++ r)) = Some x1 /\ first_accepting utf8 UntransformDir (be_all_handlers show2 c2 v2) x1 (O ++ r) h /\ zlen d = zlen x1 /\
      work (UntransformDir (B := bundle St2 Er2)) h x1 d w = Ok (ROk tt, y, w1) /\ s_files s2 (render (R ++ r)) = Some y).
    { destruct ph2 as [| |n|n z rest|n z h|n z h|n z h d0 now|[n|e]|n| |]; try contradiction; exact (proj2 Sy2). }
    destruct G0 as (x1 & h & d & w & y & w1 & F3 & Fa & Ld & Wk & Fy). pose proof (be_only_handler _ _ _ _ _ _ _ _ Fa) as ->.
    cbn [work] in Wk. rewrite slice_untransform_id in Wk by exact Ld. cbn [h_untransform be_dds_handler] in Wk.
    destruct (be_dds_untransform c2 v2 x1 d) as [[ro oo]| |] eqn:E; cbn [bind fst snd] in Wk; try discriminate Wk. injection Wk as -> -> _.
    exists x1, d, y. split; [exact F3|]. split; [exact Ld|]. split; [exact E|exact Fy]. }
  destruct G as (x1 & d & y2 & F3 & Ld & Un & Fy).
  destruct (be_killed_outputs utf8 show1 c1 v1 b I O entries1 fs1 s1 r ph1 K1 D1 U1 A1 N1 B1 R1 T1) as [E|[(x0 & Bx & E)|[(x0 & d0 & w0 & y & w1 & Bx & L0 & Tr & E)|[(z & E & No)|E]]]].
  - right; left. congruence.
  - right; right; left. assert (x0 = x) by congruence. subst x0. congruence.
  - left. assert (x0 = x) by congruence. subst x0. assert (x1 = y) by congruence. subst x1.
    destruct (be_dds_undoes show1 show1 c1 c2 v1 v2 x K1 K2 ltac:(lia) U2 ltac:(rewrite D2; intros Q; discriminate Q) b d0 w0 y w1 L0 Tr) as (Ly & Back).
    destruct (Back d w0 ltac:(congruence)) as (w3 & Q). cbn [h_untransform be_dds_handler] in Q. rewrite Un in Q. cbn [bind fst snd] in Q. injection Q as -> _. exact Fy.
  - exfalso. assert (x1 = z) by congruence. subst x1. exact (proj1 (No c2 v2 d y2) Un).
  - right; right; right. exact E.
Qed.
