(** Builders and dispatch on a big-endian machine (generated by tools/gen_be.py
    from Proofs/BundleFacts.v). *)
From Verif Require Import Base.Bytes Base.Res Model.Color565 Model.Ycc Model.Kernel Model.Transform Model.Auto Model.Builders Model.Embed Model.Bundle
  Model.BeTransform Model.BeFiles.
From Verif Require Import Spec.Layout Spec.Estimator Spec.Files Spec.BigEndian Spec.BeFiles Proofs.LayoutFacts Proofs.Families Proofs.TransformFacts Proofs.SliceFacts
  Proofs.BeSliceFacts Proofs.TransformProps Proofs.AutoProps Proofs.AutoTheorems Proofs.BeAutoProps Proofs.EmbedFacts Spec.Header Proofs.BundleFacts.
From Coq Require Import ZifyBool.

Lemma be_layout_len : forall k s x, zlen x mod codec_block k = 0 -> List.length (be_texture_layout k s x) = List.length x.
Proof.
  intros [] s x H; cbn [be_texture_layout codec_block] in *.
  - destruct (be_bc1_fam (decorrelation_mode s) (split_colour_endpoints s)) as (sht & shu & FM).
    apply (fam_len _ _ _ _ _ _ FM); unfold zlen in H; lia.
  - destruct (be_bc2_fam (decorrelation_mode s) (split_colour_endpoints s)) as (sht & shu & FM).
    apply (fam_len _ _ _ _ _ _ FM); unfold zlen in H; lia.
Qed.

Lemma be_layout_inj : forall k s x y, zlen x mod codec_block k = 0 -> List.length x = List.length y ->
  be_texture_layout k s x = be_texture_layout k s y -> x = y.
Proof.
  intros [] s x y H L E; cbn [be_texture_layout codec_block] in *.
  - destruct (be_bc1_fam (decorrelation_mode s) (split_colour_endpoints s)) as (sht & shu & FM).
    apply (fam_inj _ _ _ _ _ _ FM); [lia|unfold zlen in H; lia|lia|exact E].
  - destruct (be_bc2_fam (decorrelation_mode s) (split_colour_endpoints s)) as (sht & shu & FM).
    apply (fam_inj _ _ _ _ _ _ FM); [lia|unfold zlen in H; lia|lia|exact E].
Qed.

Lemma be_core_transform_ok : forall k c s x out, cpu_ok c -> 
  zlen x mod codec_block k = 0 -> zlen x <= zlen out ->
  be_core_transform k c s x out = Ok (ROk tt, be_texture_layout k s x ++ skipn (List.length x) out).
Proof.
  intros [] c s x out K Hm Ho; cbn [be_core_transform be_texture_layout codec_block] in *.
  - apply be_bc1_slice; auto.
  - apply be_bc2_slice; auto.
Qed.

Lemma be_core_untransform_ok : forall k c s y out, cpu_ok c -> 
  zlen y mod codec_block k = 0 -> zlen y <= zlen out ->
  exists x, be_core_untransform_ptr k c (Ptr BIn 0) (Ptr BOut 0) (zlen y) s (Mem y [] out) = Ok (Mem y [] (x ++ skipn (List.length x) out)) /\
    be_core_untransform k c s y out = Ok (ROk tt, x ++ skipn (List.length x) out) /\
    List.length x = List.length y /\ be_texture_layout k s x = y.
Proof.
  intros k c s y out K Hm Ho.
  pose proof (zlen_nonneg _ y) as Hy.
  assert (E : exists x, be_core_untransform_ptr k c (Ptr BIn 0) (Ptr BOut 0) (zlen y) s (Mem y [] out) = Ok (Mem y [] (splice out 0 x)) /\
    zlen x = zlen y /\ be_texture_layout k s x = y).
  { destruct k; cbn [be_core_untransform_ptr be_texture_layout codec_block] in *.
    - destruct (be_unbc1_call c s y [] out 0 0 (zlen y) K Hm ltac:(lia) ltac:(lia) ltac:(lia) ltac:(lia) ltac:(lia)) as (x & E & L & T).
      rewrite slice_all in T. eauto.
    - destruct (be_unbc2_call c s y [] out 0 0 (zlen y) K Hm ltac:(lia) ltac:(lia) ltac:(lia) ltac:(lia) ltac:(lia)) as (x & E & L & T).
      rewrite slice_all in T. eauto. }
  destruct E as (x & E & L & T). exists x. rewrite splice_at_0 in E. repeat apply conj; [exact E| |unfold zlen in L; lia|exact T].
  destruct k; unfold be_core_untransform, be_untransform_bc1, be_untransform_bc2, checked; cbn [codec_block] in Hm.
  - replace (zlen y mod 8 =? 0) with true by lia. cbn [negb]. replace (zlen out <? zlen y) with false by lia.
    cbn [be_core_untransform_ptr] in E. rewrite E. reflexivity.
  - replace (zlen y mod 16 =? 0) with true by lia. cbn [negb]. replace (zlen out <? zlen y) with false by lia.
    cbn [be_core_untransform_ptr] in E. rewrite E. reflexivity.
Qed.

Lemma be_core_transform_valid : forall k c s x out y, be_core_transform k c s x out = Ok (ROk tt, y) ->
  zlen x mod codec_block k = 0 /\ zlen x <= zlen out.
Proof.
  intros k c s x out y H.
  assert (V : forall blk run, checked blk run x out = Ok (ROk tt, y) -> zlen x mod blk = 0 /\ zlen x <= zlen out).
  { intros blk run. unfold checked. destruct (zlen x mod blk =? 0) eqn:A; cbn [negb]; [|discriminate].
    destruct (zlen out <? zlen x) eqn:B; [discriminate|]. intros _. lia. }
  destruct k; exact (V _ _ H).
Qed.

Lemma be_auto_transform_ok : forall {St Er} k c v (b : auto_builder St Er) x out st m y st',
  be_auto_transform k c v b x out st = Ok (ROk m, y, st') ->
  exists s, be_core_auto k c v (ab_estimator b) (ab_use_all b) x out st = Ok (ROk s, y, st') /\ mb_settings m = s.
Proof.
  intros St Er k c v b x out st m y st' H. unfold be_auto_transform in H.
  destruct (be_core_auto _ _ _ _ _ _ _ _) as [[[[s|e] o] st1]| |] eqn:E; cbn [bind] in H; try discriminate.
  injection H as <- <- <-. exists s. split; [reflexivity|]. cbn. rewrite stable_round. destruct s; reflexivity.
Qed.

Lemma be_core_auto_ok : forall {St Er} k c v (e : estimator St Er) all x out st s y st', cpu_ok c -> 
  be_core_auto k c v e all x out st = Ok (ROk s, y, st') ->
  zlen x mod codec_block k = 0 /\ zlen x <= zlen out /\ y = be_texture_layout k s x ++ skipn (List.length x) out.
Proof.
  intros St Er k c v e all x out st s y st' K H. destruct k; cbn [be_core_auto codec_block be_texture_layout] in *.
  - destruct (valid_auto _ _ _ _ _ _ _ _ H) as (Hm & Ho).
    destruct (AUTO_ok _ _ _ _ _ _ _ _ _ _ _ _ (be_bc1_AUTO c v e all x out K Hm Ho) ltac:(apply order1_in; unfold candidate; auto) H) as (_ & E). auto.
  - destruct (valid_auto _ _ _ _ _ _ _ _ H) as (Hm & Ho).
    destruct (AUTO_ok _ _ _ _ _ _ _ _ _ _ _ _ (be_bc2_AUTO c v e all x out K Hm Ho) ltac:(apply order1_in; unfold candidate; auto) H) as (_ & E). auto.
Qed.

Lemma be_slice_details_ok : forall {St Er} (show : Er -> string) k c v (b : builder St Er) x out st s y st', cpu_ok c -> 
  be_transform_slice_with_details show k c v b x out st = Ok (ROk s, y, st') ->
  zlen x mod codec_block k = 0 /\ zlen x <= zlen out /\ y = be_texture_layout k s x ++ skipn (List.length x) out.
Proof.
  intros St Er show k c v b x out st s y st' K H. destruct b as [b|b]; cbn [be_transform_slice_with_details] in H.
  - unfold be_manual_transform in H. destruct (be_core_transform k c (mb_settings b) x out) as [[r o]| |] eqn:E; cbn [bind fst snd] in H; try discriminate.
    destruct (map_err from_validation_error r) as [a|e] eqn:M; [|discriminate]. injection H as <- <- <-.
    apply map_err_ok in M. subst r. destruct a. destruct (be_core_transform_valid _ _ _ _ _ _ E) as (Hm & Ho).
    rewrite (be_core_transform_ok k c (mb_settings b) x out K Hm Ho) in E. injection E as <-. auto.
  - destruct (be_auto_transform k c v b x out st) as [[[[m|e] o] st1]| |] eqn:E; cbn [bind] in H; try discriminate.
    injection H as <- <- <-. destruct (be_auto_transform_ok _ _ _ _ _ _ _ _ _ _ E) as (s & E1 & <-).
    exact (be_core_auto_ok _ _ _ _ _ _ _ _ _ _ _ K E1).
Qed.

Lemma be_dispatch_ok : forall {St Er} (show : Er -> string) c v (t : bundle St Er) f x out st h y st', cpu_ok c -> 
  be_dispatch_transform show c v t f x out st = Ok (ROk h, y, st') ->
  exists k s, f = codec_format k /\ h = codec_header k s /\
    zlen x mod codec_block k = 0 /\ zlen x <= zlen out /\ y = be_texture_layout k s x ++ skipn (List.length x) out.
Proof.
  intros St Er show c v t f x out st h y st' K H. unfold be_dispatch_transform in H.
  destruct (zlen out <? zlen x) eqn:Z; [discriminate|].
  assert (G : forall k b, (match b with
      | None => Ok (RErr (EFormatHandler (NoBuilderForFormat f)), out, st)
      | Some b =>
          do r <- be_transform_slice_with_details show k c v b x out st ;;
          match r with
          | (RErr e1, out, st1) => Ok (RErr e1, out, st1)
          | (ROk details, out, st1) => Ok (ROk (codec_header k details), out, st1)
          end
      end) = Ok (ROk h, y, st') -> exists s, h = codec_header k s /\ zlen x mod codec_block k = 0 /\ zlen x <= zlen out /\ y = be_texture_layout k s x ++ skipn (List.length x) out).
  { intros k [b|] G; [|discriminate].
    destruct (be_transform_slice_with_details show k c v b x out st) as [[[[s|e] o] st1]| |] eqn:E; cbn [bind] in G; try discriminate.
    injection G as <- <- <-. exists s. split; [reflexivity|]. exact (be_slice_details_ok _ _ _ _ _ _ _ _ _ _ _ K E). }
  destruct f; try discriminate.
  - destruct (G CBc1 (b_bc1 t) H) as (s & A). exists CBc1, s. split; [reflexivity|exact A].
  - destruct (G CBc2 (b_bc2 t) H) as (s & A). exists CBc2, s. split; [reflexivity|exact A].
Qed.

Lemma be_undispatch_ok : forall c k s y out, cpu_ok c -> 
  zlen y mod codec_block k = 0 -> zlen y <= zlen out ->
  exists x, be_dispatch_untransform c (codec_header k s) y out = Ok (ROk tt, x ++ skipn (List.length x) out) /\
    List.length x = List.length y /\ be_texture_layout k s x = y.
Proof.
  intros c k s y out K Hm Ho. destruct (be_core_untransform_ok k c s y out K Hm Ho) as (x & E & _ & L & T). exists x.
  split; [|split; assumption]. unfold be_dispatch_untransform. replace (zlen out <? zlen y) with false by lia.
  destruct (codec_header_decodes k s) as (F & D). rewrite F.
  destruct k; cbn [codec_format]; rewrite D; cbn [codec_block] in *.
  - replace (zlen y mod 8 =? 0) with true by lia. cbn [negb]. rewrite E. reflexivity.
  - replace (zlen y mod 16 =? 0) with true by lia. cbn [negb]. rewrite E. reflexivity.
Qed.

Lemma be_round_layout : forall c k s x out, cpu_ok c -> 
  zlen x mod codec_block k = 0 -> zlen x <= zlen out ->
  be_dispatch_untransform c (codec_header k s) (be_texture_layout k s x) out = Ok (ROk tt, x ++ skipn (List.length x) out).
Proof.
  intros c k s x out K Hm Ho. pose proof (be_layout_len k s x Hm) as LL.
  destruct (be_undispatch_ok c k s (be_texture_layout k s x) out K) as (x' & E & L & T).
  - unfold zlen in *. rewrite LL. exact Hm.
  - unfold zlen in *. rewrite LL. exact Ho.
  - rewrite E. assert (x' = x) as ->; [|reflexivity].
    apply (be_layout_inj k s); [|lia|exact T]. unfold zlen in *. rewrite L, LL. exact Hm.
Qed.

Lemma be_dispatch_round_trip : forall (St Er : Type) (show : Er -> string) (c1 c2 : cfg) (v : env) (t : bundle St Er) (f : transform_format)
    (x out out2 : list byte) (st st' : St) (h : header) (y : list byte),
  cpu_ok c1 -> cpu_ok c2 -> 
  be_dispatch_transform show c1 v t f x out st = Ok (ROk h, y, st') -> zlen x <= zlen out2 ->
  be_dispatch_untransform c2 h (firstn (List.length x) y) out2 = Ok (ROk tt, x ++ skipn (List.length x) out2).
Proof.
  intros St Er show c1 c2 v t f x out out2 st st' h y K1 K2 H H2.
  destruct (be_dispatch_ok _ _ _ _ _ _ _ _ _ _ _ K1 H) as (k & s & -> & -> & Hm & Ho & ->).
  rewrite firstn_app, <- (be_layout_len k s x Hm), firstn_all, Nat.sub_diag, app_nil_r, (be_layout_len k s x Hm).
  apply be_round_layout; auto.
Qed.

Lemma be_dispatch_manual : forall (St Er : Type) (show : Er -> string) (c : cfg) (v : env) (k : codec) (b : manual_builder)
    (x out : list byte) (st : St),
  zlen x <= zlen out ->
  be_dispatch_transform show c v (installed [WithManual (St := St) (Er := Er) k b]) (codec_format k) x out st =
  (do r <- be_core_transform k c (mb_settings b) x out ;;
   Ok (match fst r with ROk _ => ROk (codec_header k (mb_settings b)) | RErr e => RErr (codec_error k (from_validation_error e)) end, snd r, st)).
Proof.
  intros St Er show c v k b x out st Ho. unfold be_dispatch_transform. replace (zlen out <? zlen x) with false by lia.
  destruct k; cbn [codec_format installed fold_left installs with_bc1_manual with_bc2_manual b_bc1 b_bc2 be_transform_slice_with_details];
    unfold be_manual_transform; destruct (be_core_transform _ _ _ _ _) as [[[[]|e] o]| |]; reflexivity.
Qed.

Lemma be_dispatch_auto : forall (St Er : Type) (show : Er -> string) (c : cfg) (v : env) (k : codec) (b : auto_builder St Er)
    (x out : list byte) (st : St),
  zlen x <= zlen out ->
  be_dispatch_transform show c v (installed [WithAuto k b]) (codec_format k) x out st =
  (do r <- be_core_auto k c v (ab_estimator b) (ab_use_all b) x out st ;;
   match r with
   | (ROk s, y, st') => Ok (ROk (codec_header k s), y, st')
   | (RErr e, y, st') => Ok (RErr (codec_error k (printed show (from_auto_transform_error e))), y, st')
   end).
Proof.
  intros St Er show c v k b x out st Ho. unfold be_dispatch_transform. replace (zlen out <? zlen x) with false by lia.
  destruct k; cbn [codec_format installed fold_left installs with_bc1_auto with_bc2_auto b_bc1 b_bc2 be_transform_slice_with_details];
    unfold be_auto_transform; destruct (be_core_auto _ _ _ _ _ _ _ _) as [[[[s|e] o] st1]| |]; try reflexivity;
    cbn; rewrite stable_round; destruct s; reflexivity.
Qed.

