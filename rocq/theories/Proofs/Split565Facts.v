(** What the endpoint splitter produces. *)
From Verif Require Import Base.Bytes Base.Res Model.Color565 Model.Ycc Model.Kernel Model.GenSplit565
  Proofs.KernelCheck Proofs.KernelLoop Proofs.KernelFun Proofs.Shapes Spec.YCoCg Spec.Layout
  Proofs.LayoutFacts Proofs.ShapeLayout Proofs.Families Proofs.TransformFacts Proofs.KSplit565.
From Coq Require Import ZifyBool ZifyNat.

Lemma sh_split_fine : shape_fine sh_split.
Proof. apply shape_ok_fine; vm_compute; reflexivity. Qed.
Lemma sh_split_fields : Forall2 (tmpl_field VNone 4) (sh_outs sh_split) [raw 0 2; raw 2 2].
Proof. repeat first [apply Forall2_nil | apply Forall2_cons]; intros blk H; list_len blk H; reflexivity. Qed.

Lemma split_run : forall c inp aux out a b n, cpu_ok c -> split_len_ok c n -> 0 <= a -> 0 <= b -> 0 <= n ->
  a + 4 * n <= zlen inp -> b + 4 * n <= zlen out ->
  common_transforms_split_565_color_endpoints_split_color_endpoints c (Ptr BIn a) (Ptr BOut b) (4 * n) (Mem inp aux out) =
  Ok (Mem inp aux (splice out b (lay [raw 0 2; raw 2 2] (blocks 4 (slice inp a (4 * n)))))).
Proof.
  intros c inp aux out a b n K P Ha Hb Hn Hi Ho.
  pose proof (split_ok c) as Q. apply TSPEC_RUN in Q; [|exact sh_split_fine|intros ? ? ? ? E'; cbv beta; rewrite !E'; reflexivity].
  specialize (Q a b n (Mem inp aux out) K eq_refl P Ha Hb Hn).
  change (total (sh_ins sh_split)) with 4 in Q. change (total (map zlen (sh_outs sh_split))) with 4 in Q. cbn [m_in m_out m_aux] in Q.
  specialize (Q ltac:(lia) ltac:(lia)). cbv beta in Q.
  rewrite base_in, base_out in Q by (cbn; lia).
  replace (a + n * presum (sh_ins sh_split) 0) with a in Q by (unfold presum; cbn; lia).
  replace (b + n * presum (map zlen (sh_outs sh_split)) 0) with b in Q by (unfold presum; cbn; lia).
  replace (4 * n) with (n * 4) by lia. rewrite Q. f_equal. f_equal. f_equal.
  rewrite (sh_out_lay _ _ _ 4 [raw 0 2; raw 2 2]); [|exact sh_split_fine|reflexivity|exact sh_split_fields|lia|lia|cbn [Z.of_nat Pos.of_succ_nat Pos.succ]; lia].
  f_equal. unfold blocks. change (Z.of_nat 4) with 4. f_equal.
  pose proof (zlen_slice _ inp a (n * 4) ltac:(lia) ltac:(lia) ltac:(lia)) as Z. unfold zlen in Z.
  replace (List.length (slice inp a (n * 4))) with (Z.to_nat n * 4)%nat by lia. rewrite Nat.div_mul by lia. reflexivity.
Qed.

Lemma split_pairs : forall (ps : list (list byte * list byte)), Forall (fun '(p, q) => List.length p = 2%nat /\ List.length q = 2%nat) ps ->
  lay [raw 0 2; raw 2 2] (blocks 4 (List.concat (map (fun '(p, q) => p ++ q) ps))) = List.concat (map fst ps) ++ List.concat (map snd ps).
Proof.
  intros ps F.
  assert (L4 : forall x, In x (map (fun '(p, q) => p ++ q) ps) -> List.length x = 4%nat).
  { intros x Hx. apply in_map_iff in Hx. destruct Hx as ([p q] & <- & I). rewrite Forall_forall in F. destruct (F _ I) as [A B]. rewrite app_length, A, B. reflexivity. }
  unfold blocks. rewrite (length_concat_const 4 _ L4), map_length, Nat.div_mul by lia.
  rewrite <- (map_length (fun '(p, q) => p ++ q) ps) at 1. rewrite <- (app_nil_r (List.concat _)). rewrite chunks_app by exact L4.
  unfold lay. cbn [map List.concat]. rewrite app_nil_r. rewrite !map_map. f_equal; f_equal; apply map_ext_in; intros [p q] I; rewrite Forall_forall in F;
    destruct (F _ I) as [A B]; list_len p A; list_len q B; reflexivity.
Qed.
Lemma split_pairs_run : forall c before ps after aux out b, cpu_ok c -> split_len_ok c (zlen ps) -> 0 <= b ->
  Forall (fun '(p, q) => List.length p = 2%nat /\ List.length q = 2%nat) ps -> b + 4 * zlen ps <= zlen out ->
  let inp := before ++ List.concat (map (fun '(p, q) => p ++ q) ps) ++ after in
  common_transforms_split_565_color_endpoints_split_color_endpoints c (Ptr BIn (zlen before)) (Ptr BOut b) (4 * zlen ps) (Mem inp aux out) =
  Ok (Mem inp aux (splice out b (List.concat (map fst ps) ++ List.concat (map snd ps)))).
Proof.
  intros c before ps after aux out b K P Hb F Ho inp.
  assert (L4 : List.length (List.concat (map (fun '(p, q) => p ++ q) ps)) = (List.length ps * 4)%nat).
  { rewrite (length_concat_const 4); [rewrite map_length; reflexivity|].
    intros x Hx. apply in_map_iff in Hx. destruct Hx as ([p q] & <- & I). rewrite Forall_forall in F. destruct (F _ I) as [A B]. rewrite app_length, A, B. reflexivity. }
  rewrite split_run; try assumption; try (unfold zlen; lia).
  - rewrite <- split_pairs by exact F. unfold inp, slice, zlen. rewrite Nat2Z.id. rewrite skipn_app, skipn_all, Nat.sub_diag. cbn [skipn app].
    replace (Z.to_nat (4 * Z.of_nat (List.length ps))) with (List.length (List.concat (map (fun '(p, q) => p ++ q) ps))) by lia.
    rewrite firstn_app, firstn_all, Nat.sub_diag. cbn [firstn]. rewrite app_nil_r. reflexivity.
  - unfold inp. rewrite !zlen_app. unfold zlen at 2 4. rewrite L4. pose proof (zlen_nonneg _ after). unfold zlen in *. lia.
Qed.
Lemma split_short_refuted : exists (c : cfg) (inp out : list byte) why, cpu_ok c /\ zlen inp = 4 /\ zlen out = 4 /\
  common_transforms_split_565_color_endpoints_split_color_endpoints c (Ptr BIn 0) (Ptr BOut 0) 4 (Mem inp [] out) = Ub why.
Proof.
  exists (Cfg false X86_64 false true true true false false false false x00), [x00; x01; x02; x03], [x00; x00; x00; x00]. eexists.
  split; [constructor; intros; reflexivity || discriminate|]. split; [reflexivity|]. split; [reflexivity|]. vm_compute. reflexivity.
Qed.
