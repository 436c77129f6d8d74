(** C52, C85: exactly which details the search with normalisation returns. *)
From Verif Require Import Base.Bytes Base.Res Model.Color565 Model.Ycc Model.Kernel Model.GenBc1Std Model.GenSplit565
  Model.ColorSlices Model.Transform Model.Auto Model.Decode Model.Normalize Model.NormTransform Model.BigEndian Model.BeTransform Model.BeFiles Model.BeNormTransform
  Spec.YCoCg Spec.Layout Spec.BigEndian Spec.Pixels Spec.Normalize Spec.Estimator Spec.NormTransform Spec.BeFiles Spec.NormFirst
  Proofs.KernelCheck Proofs.TransformFacts Proofs.AutoFacts Proofs.AutoProps Proofs.AutoTheorems Proofs.NormTransformFacts Proofs.NormAuto Proofs.NormAutoTheorems
  Proofs.BeNormTransformFacts Proofs.BeNormAuto Proofs.BeNormAutoTheorems Proofs.BeNormProps.
From Coq Require Import ZifyBool ZifyNat.

Section Pick.
Context {A Er : Type}.
Variable f : A -> result Z Er.
Fixpoint pick (l : list A) (b : option A) (bs : Z) : option A * Z :=
  match l with
  | [] => (b, bs)
  | a :: l => match f a with
              | RErr _ => pick l b bs
              | ROk z => if z <? bs then pick l (Some a) z else pick l b bs
              end
  end.
Lemma pick_spec : forall l b bs r z, pick l b bs = (r, z) ->
  (r = b /\ z = bs /\ forall a w, In a l -> f a = ROk w -> bs <= w) \/
  (exists l1 a l2, r = Some a /\ l = l1 ++ a :: l2 /\ f a = ROk z /\ z < bs /\
     (forall a' w, In a' l1 -> f a' = ROk w -> z < w) /\ (forall a' w, In a' l2 -> f a' = ROk w -> z <= w)).
Proof.
  intros l. induction l as [|a l IH]; intros b bs r z H; cbn [pick] in H.
  - left. injection H as <- <-. split; [reflexivity|]. split; [reflexivity|]. intros a w [].
  - destruct (f a) as [w|er] eqn:E; [destruct (w <? bs) eqn:L|].
    + right. apply IH in H. destruct H as [(-> & -> & H)|(l1 & a1 & l2 & -> & -> & F & LT & H1 & H2)].
      * exists [], a, l. split; [reflexivity|]. split; [reflexivity|]. split; [exact E|]. split; [lia|]. split; [intros a' w' []|exact H].
      * exists (a :: l1), a1, l2. split; [reflexivity|]. split; [reflexivity|]. split; [exact F|]. split; [lia|]. split; [|exact H2].
        intros a' w' [<-|I] E'; [rewrite E in E'; injection E' as <-; exact LT|exact (H1 _ _ I E')].
    + apply IH in H. destruct H as [(-> & -> & H)|(l1 & a1 & l2 & -> & -> & F & LT & H1 & H2)].
      * left. split; [reflexivity|]. split; [reflexivity|]. intros a' w' [<-|I] E'; [rewrite E in E'; injection E' as <-; lia|exact (H _ _ I E')].
      * right. exists (a :: l1), a1, l2. split; [reflexivity|]. split; [reflexivity|]. split; [exact F|]. split; [exact LT|]. split; [|exact H2].
        intros a' w' [<-|I] E'; [rewrite E in E'; injection E' as <-; lia|exact (H1 _ _ I E')].
    + apply IH in H. destruct H as [(-> & -> & H)|(l1 & a1 & l2 & -> & -> & F & LT & H1 & H2)].
      * left. split; [reflexivity|]. split; [reflexivity|]. intros a' w' [<-|I] E'; [rewrite E in E'; discriminate E'|exact (H _ _ I E')].
      * right. exists (a :: l1), a1, l2. split; [reflexivity|]. split; [reflexivity|]. split; [exact F|]. split; [exact LT|]. split; [|exact H2].
        intros a' w' [<-|I] E'; [rewrite E in E'; discriminate E'|exact (H1 _ _ I E')].
Qed.
End Pick.

Definition won (b : details) (r : option (details * list byte)) : details := match r with Some p => fst p | None => b end.
Lemma tries_pick : forall (Er : Type) (mx : Z -> result Z Er) size comp l b r bs,
  tries (pure mx size) comp l (won b r) bs tt =
  (won b (fst (pick (fun p => size (colour_part (d_decorr (fst p)) (d_split (fst p)) (snd p)) comp) l r bs)),
   snd (pick (fun p => size (colour_part (d_decorr (fst p)) (d_split (fst p)) (snd p)) comp) l r bs), tt).
Proof.
  intros Er mx size comp l. induction l as [|[d y] l IH]; intros b r bs; [reflexivity|]. cbn [tries pick fst snd].
  unfold pure at 1. cbn [estimate_compressed_size].
  destruct (size (colour_part (d_decorr d) (d_split d) y) comp) as [z|e1]; [destruct (z <? bs); [exact (IH b (Some (d, y)) z)|]|]; apply IH.
Qed.
Lemma be_tries_pick : forall (Er : Type) (mx : Z -> result Z Er) size comp l b r bs,
  be_tries (pure mx size) comp l (won b r) bs tt =
  (won b (fst (pick (fun p => size (be_colour_part (d_decorr (fst p)) (d_split (fst p)) (snd p)) comp) l r bs)),
   snd (pick (fun p => size (be_colour_part (d_decorr (fst p)) (d_split (fst p)) (snd p)) comp) l r bs), tt).
Proof.
  intros Er mx size comp l. induction l as [|[d y] l IH]; intros b r bs; [reflexivity|]. cbn [be_tries pick fst snd].
  unfold pure at 1. cbn [estimate_compressed_size].
  destruct (size (be_colour_part (d_decorr d) (d_split d) y) comp) as [z|e1]; [destruct (z <? bs); [exact (IH b (Some (d, y)) z)|]|]; apply IH.
Qed.

Lemma cands_tried : forall all y0 y1 y2, map fst (cands all_color_norms [y0; y1; y2] (order1 all)) = details_tried all.
Proof. intros [] y0 y1 y2; reflexivity. Qed.

(** From the list of candidates with their measured textures to the list of details. *)
Lemma picked_first : forall (Er : Type) limit (size : list byte -> result Z Er) shown part x all y0 y1 y2 r z,
  (forall y s, total_size size (shown y s) = match size (part (decorrelation_mode s) (split_colour_endpoints s) y) with ROk a => ROk a | RErr e => RErr e end) ->
  zlen x mod 8 = 0 -> blockwise 8 (measured CNone) x y0 -> blockwise 8 (measured Color0Only) x y1 -> blockwise 8 (measured ReplicateColor) x y2 ->
  pick (fun p => size (part (d_decorr (fst p)) (d_split (fst p)) (snd p))) (cands all_color_norms [y0; y1; y2] (order1 all)) None limit = (r, z) ->
  first_smallest (estimated limit size shown x) (details_tried all) (won (Details CNone V1 true) r).
Proof.
  intros Er limit size shown part x all y0 y1 y2 r z SH M B0 B1 B2 P. apply pick_spec in P.
  assert (BW : forall d y, In (d, y) (cands all_color_norms [y0; y1; y2] (order1 all)) -> blockwise 8 (measured (d_norm d)) x y).
  { intros d y I. apply cands_in in I. destruct I as [I _]. cbn [all_color_norms combine In] in I.
    destruct I as [I|[I|[I|[]]]]; injection I as <- <-; assumption. }
  assert (EST : forall d y w, blockwise 8 (measured (d_norm d)) x y -> estimated limit size shown x d w ->
    size (part (d_decorr d) (d_split d) y) = ROk w /\ w < limit).
  { intros d y w B (y' & B' & T & L). split; [|exact L]. rewrite (measured_functional _ _ _ _ M B B').
    rewrite SH in T. cbn [decorrelation_mode split_colour_endpoints] in T. destruct (size _); [exact T|discriminate T]. }
  assert (UP : forall l d, (forall d y, In (d, y) l -> blockwise 8 (measured (d_norm d)) x y) -> In d (map fst l) -> exists y, In (d, y) l /\ blockwise 8 (measured (d_norm d)) x y).
  { intros l d H I. apply in_map_iff in I. destruct I as ([d' y] & <- & I). exists y. split; [exact I|]. apply H. exact I. }
  rewrite <- (cands_tried all y0 y1 y2). destruct P as [(-> & -> & H)|(l1 & [d y] & l2 & -> & E & F & LT & H1 & H2)].
  - left. split; [reflexivity|]. intros d' z' I ES. destruct (UP _ _ BW I) as (y & I2 & B). destruct (EST _ _ _ B ES) as [F L].
    pose proof (H (d', y) z' I2 F). lia.
  - right. exists (map fst l1), (map fst l2), z. rewrite E, map_app. cbn [map fst won]. split; [reflexivity|].
    assert (BW1 : forall d y, In (d, y) l1 -> blockwise 8 (measured (d_norm d)) x y) by (intros d1 y' I; apply BW; rewrite E; apply in_or_app; left; exact I).
    assert (BW2 : forall d y, In (d, y) l2 -> blockwise 8 (measured (d_norm d)) x y) by (intros d1 y' I; apply BW; rewrite E; apply in_or_app; right; right; exact I).
    cbn [fst snd] in F. split; [|split].
    + exists y. split; [apply BW; rewrite E; apply in_or_app; right; left; reflexivity|]. rewrite SH. cbn [decorrelation_mode split_colour_endpoints]. rewrite F. split; [reflexivity|exact LT].
    + intros d' z' I ES. destruct (UP _ _ BW1 I) as (y' & I2 & B). destruct (EST _ _ _ B ES) as [F' _]. exact (H1 (d', y') z' I2 F').
    + intros d' z' I ES. destruct (UP _ _ BW2 I) as (y' & I2 & B). destruct (EST _ _ _ B ES) as [F' _]. exact (H2 (d', y') z' I2 F').
Qed.

Lemma one_section : forall (Er : Type) (size : list byte -> result Z Er) b, total_size size [b] = match size b with ROk a => ROk a | RErr e => RErr e end.
Proof. intros. cbn [total_size]. destruct (size b); [rewrite Z.add_0_r|]; reflexivity. Qed.

Lemma norm_first : forall (Er : Type) c v (mx : Z -> result Z Er) size all fresh even m inp out len d m', cpu_ok c -> len mod 8 = 0 ->
  within m inp len -> within m out len -> inp + len <= out \/ out + len <= inp ->
  normalisable (slice m inp len) -> splittable c (len / 8) ->
  transform_bc1_auto_with_normalization c v (pure mx size) all fresh even inp out len m tt = Ok (ROk d, m', tt) ->
  exists scratch, mx (len / 2) = ROk scratch /\
    first_smallest (estimated (usize_max v) (fun b => size b scratch) bc1_shown (slice m inp len)) (details_tried all) d.
Proof.
  intros Er c v mx size all fresh even m inp out len d m' K M WI WO A N SL RUN. apply apartb_iff in A. apply auto_even in RUN.
  assert (Hx : zlen (slice m inp len) = len) by (destruct WI as [? [? ?]]; apply zlen_slice; lia).
  destruct (auto_some c v (pure mx size) all fresh m inp out len tt K M WI WO A N SL) as (y0 & y1 & y2 & B0 & B1 & B2 & R).
  destruct R as [(st1 & n & R & _)|[(e1 & st1 & _ & R)|(scratch & st1 & d1 & bs & st2 & m1 & MX & TR & R & _ & _)]];
    rewrite RUN in R; [discriminate R|discriminate R|]. injection R as <- _ _.
  unfold pure in MX. cbn [max_compressed_size] in MX. injection MX as MX <-. exists scratch. split; [exact MX|].
  pose proof (tries_pick _ mx size scratch (cands all_color_norms [y0; y1; y2] (order1 all)) default_details None (usize_max v)) as TP.
  cbn [won] in TP. rewrite TR in TP. destruct (pick _ _ None (usize_max v)) as [r z] eqn:PK. injection TP as -> _ _.
  apply (picked_first Er (usize_max v) (fun b => size b scratch) bc1_shown colour_part) with (y0 := y0) (y1 := y1) (y2 := y2) (z := z); try assumption.
  - intros y s. unfold bc1_shown. apply one_section.
  - rewrite Hx. exact M.
Qed.

Lemma be_norm_first : forall (Er : Type) debug junk v (mx : Z -> result Z Er) size all fresh even m inp out len d m', len mod 8 = 0 ->
  within m inp len -> within m out len -> inp + len <= out \/ out + len <= inp -> normalisable (slice m inp len) ->
  be_transform_bc1_auto_with_normalization (big_endian_cpu debug junk) v (pure mx size) all fresh even inp out len m tt = Ok (ROk d, m', tt) ->
  exists scratch, mx (len / 2) = ROk scratch /\
    first_smallest (estimated (usize_max v) (fun b => size b scratch) be_bc1_shown (slice m inp len)) (details_tried all) d.
Proof.
  intros Er debug junk v mx size all fresh even m inp out len d m' M WI WO A N RUN. apply apartb_iff in A. apply be_auto_even in RUN.
  assert (Hx : zlen (slice m inp len) = len) by (destruct WI as [? [? ?]]; apply zlen_slice; lia).
  assert (K : cpu_ok (big_endian_cpu debug junk)) by (constructor; intros H; discriminate H).
  assert (SL : c_debug (big_endian_cpu debug junk) = true -> 0 < len / 8).
  { intros _. destruct N as (k & H1 & H2 & _). lia. }
  destruct (be_auto_some _ v (pure mx size) all fresh m inp out len tt K M WI WO A N SL) as (y0 & y1 & y2 & B0 & B1 & B2 & R).
  destruct R as [(st1 & n & R & _)|[(e1 & st1 & _ & R)|(scratch & st1 & d1 & bs & st2 & m1 & MX & TR & R & _ & _)]];
    rewrite RUN in R; [discriminate R|discriminate R|]. injection R as <- _ _.
  unfold pure in MX. cbn [max_compressed_size] in MX. injection MX as MX <-. exists scratch. split; [exact MX|].
  pose proof (be_tries_pick _ mx size scratch (cands all_color_norms [y0; y1; y2] (order1 all)) default_details None (usize_max v)) as TP.
  cbn [won] in TP. rewrite TR in TP. destruct (pick _ _ None (usize_max v)) as [r z] eqn:PK. injection TP as -> _ _.
  apply (picked_first Er (usize_max v) (fun b => size b scratch) be_bc1_shown be_colour_part) with (y0 := y0) (y1 := y1) (y2 := y2) (z := z); try assumption.
  - intros y s. unfold be_bc1_shown. apply one_section.
  - rewrite Hx. exact M.
Qed.
