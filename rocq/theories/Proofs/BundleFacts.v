(** Bundles and dispatch. *)
From Verif Require Import Base.Bytes Base.Res Model.Color565 Model.Ycc Model.Kernel Model.Transform Model.Auto Model.Builders Model.Embed Model.Bundle.
From Verif Require Import Spec.Layout Spec.Estimator Spec.Files Proofs.LayoutFacts Proofs.Families Proofs.TransformFacts Proofs.SliceFacts Proofs.TransformProps
  Proofs.AutoProps Proofs.AutoTheorems Proofs.EmbedFacts Spec.Header.
From Coq Require Import ZifyBool.

Lemma layout_len : forall k s x, zlen x mod codec_block k = 0 -> List.length (texture_layout k s x) = List.length x.
Proof.
  intros [] s x H; cbn [texture_layout codec_block] in *.
  - destruct (bc1_fam (decorrelation_mode s) (split_colour_endpoints s)) as (sht & shu & FM).
    apply (fam_len _ _ _ _ _ _ FM); unfold zlen in H; lia.
  - destruct (bc2_fam (decorrelation_mode s) (split_colour_endpoints s)) as (sht & shu & FM).
    apply (fam_len _ _ _ _ _ _ FM); unfold zlen in H; lia.
Qed.
Lemma layout_inj : forall k s x y, zlen x mod codec_block k = 0 -> List.length x = List.length y ->
  texture_layout k s x = texture_layout k s y -> x = y.
Proof.
  intros [] s x y H L E; cbn [texture_layout codec_block] in *.
  - destruct (bc1_fam (decorrelation_mode s) (split_colour_endpoints s)) as (sht & shu & FM).
    apply (fam_inj _ _ _ _ _ _ FM); [lia|unfold zlen in H; lia|lia|exact E].
  - destruct (bc2_fam (decorrelation_mode s) (split_colour_endpoints s)) as (sht & shu & FM).
    apply (fam_inj _ _ _ _ _ _ FM); [lia|unfold zlen in H; lia|lia|exact E].
Qed.

Lemma core_transform_ok : forall k c s x out, supported c -> (c_debug c = true -> x <> []) ->
  zlen x mod codec_block k = 0 -> zlen x <= zlen out ->
  core_transform k c s x out = Ok (ROk tt, texture_layout k s x ++ skipn (List.length x) out).
Proof.
  intros [] c s x out (K & VL) HD Hm Ho; cbn [core_transform texture_layout codec_block] in *.
  - apply bc1_slice; auto.
  - apply bc2_slice; auto.
Qed.

Lemma core_untransform_ok : forall k c s y out, supported c -> (c_debug c = true -> y <> []) ->
  zlen y mod codec_block k = 0 -> zlen y <= zlen out ->
  exists x, core_untransform_ptr k c (Ptr BIn 0) (Ptr BOut 0) (zlen y) s (Mem y [] out) = Ok (Mem y [] (x ++ skipn (List.length x) out)) /\
    core_untransform k c s y out = Ok (ROk tt, x ++ skipn (List.length x) out) /\
    List.length x = List.length y /\ texture_layout k s x = y.
Proof.
  intros k c s y out (K & VL) HD Hm Ho.
  assert (HL : c_debug c = true -> 0 < zlen y) by (intros D; specialize (HD D); destruct y; [congruence|unfold zlen; cbn [List.length]; lia]).
  pose proof (zlen_nonneg _ y) as Hy.
  assert (E : exists x, core_untransform_ptr k c (Ptr BIn 0) (Ptr BOut 0) (zlen y) s (Mem y [] out) = Ok (Mem y [] (splice out 0 x)) /\
    zlen x = zlen y /\ texture_layout k s x = y).
  { destruct k; cbn [core_untransform_ptr texture_layout codec_block] in *.
    - destruct (unbc1_call c s y [] out 0 0 (zlen y) K ltac:(auto) Hm ltac:(lia) ltac:(lia) ltac:(lia) ltac:(lia) ltac:(lia)) as (x & E & L & T).
      rewrite slice_all in T. eauto.
    - destruct (unbc2_call c s y [] out 0 0 (zlen y) K Hm ltac:(lia) ltac:(lia) ltac:(lia) ltac:(lia) ltac:(lia)) as (x & E & L & T).
      rewrite slice_all in T. eauto. }
  destruct E as (x & E & L & T). exists x. rewrite splice_at_0 in E. repeat apply conj; [exact E| |unfold zlen in L; lia|exact T].
  destruct k; unfold core_untransform, untransform_bc1, untransform_bc2, checked; cbn [codec_block] in Hm.
  - replace (zlen y mod 8 =? 0) with true by lia. cbn [negb]. replace (zlen out <? zlen y) with false by lia.
    cbn [core_untransform_ptr] in E. rewrite E. reflexivity.
  - replace (zlen y mod 16 =? 0) with true by lia. cbn [negb]. replace (zlen out <? zlen y) with false by lia.
    cbn [core_untransform_ptr] in E. rewrite E. reflexivity.
Qed.

Lemma core_transform_valid : forall k c s x out y, core_transform k c s x out = Ok (ROk tt, y) ->
  zlen x mod codec_block k = 0 /\ zlen x <= zlen out.
Proof.
  intros k c s x out y H.
  assert (V : forall blk run, checked blk run x out = Ok (ROk tt, y) -> zlen x mod blk = 0 /\ zlen x <= zlen out).
  { intros blk run. unfold checked. destruct (zlen x mod blk =? 0) eqn:A; cbn [negb]; [|discriminate].
    destruct (zlen out <? zlen x) eqn:B; [discriminate|]. intros _. lia. }
  destruct k; exact (V _ _ H).
Qed.

Lemma map_err_ok : forall A E F (f : E -> F) (r : result A E) a, map_err f r = ROk a -> r = ROk a.
Proof. intros A E F f r a H. destruct r; cbn in H; congruence. Qed.

Lemma stable_round : forall v, to_internal_variant (from_internal_variant v) = v.
Proof. intros []; reflexivity. Qed.

Lemma auto_transform_ok : forall {St Er} k c v (b : auto_builder St Er) x out st m y st',
  auto_transform k c v b x out st = Ok (ROk m, y, st') ->
  exists s, core_auto k c v (ab_estimator b) (ab_use_all b) x out st = Ok (ROk s, y, st') /\ mb_settings m = s.
Proof.
  intros St Er k c v b x out st m y st' H. unfold auto_transform in H.
  destruct (core_auto _ _ _ _ _ _ _ _) as [[[[s|e] o] st1]| |] eqn:E; cbn [bind] in H; try discriminate.
  injection H as <- <- <-. exists s. split; [reflexivity|]. cbn. rewrite stable_round. destruct s; reflexivity.
Qed.

Lemma core_auto_ok : forall {St Er} k c v (e : estimator St Er) all x out st s y st', supported c -> (c_debug c = true -> x <> []) ->
  core_auto k c v e all x out st = Ok (ROk s, y, st') ->
  zlen x mod codec_block k = 0 /\ zlen x <= zlen out /\ y = texture_layout k s x ++ skipn (List.length x) out.
Proof.
  intros St Er k c v e all x out st s y st' (K & VL) HD H. destruct k; cbn [core_auto codec_block texture_layout] in *.
  - destruct (valid_auto _ _ _ _ _ _ _ _ H) as (Hm & Ho).
    destruct (AUTO_ok _ _ _ _ _ _ _ _ _ _ _ _ (bc1_AUTO c v e all x out K HD Hm Ho) ltac:(apply order1_in; unfold candidate; auto) H) as (_ & E). auto.
  - destruct (valid_auto _ _ _ _ _ _ _ _ H) as (Hm & Ho).
    destruct (AUTO_ok _ _ _ _ _ _ _ _ _ _ _ _ (bc2_AUTO c v e all x out K VL Hm Ho) ltac:(apply order1_in; unfold candidate; auto) H) as (_ & E). auto.
Qed.

Lemma slice_details_ok : forall {St Er} (show : Er -> string) k c v (b : builder St Er) x out st s y st', supported c -> (c_debug c = true -> x <> []) ->
  transform_slice_with_details show k c v b x out st = Ok (ROk s, y, st') ->
  zlen x mod codec_block k = 0 /\ zlen x <= zlen out /\ y = texture_layout k s x ++ skipn (List.length x) out.
Proof.
  intros St Er show k c v b x out st s y st' K HD H. destruct b as [b|b]; cbn [transform_slice_with_details] in H.
  - unfold manual_transform in H. destruct (core_transform k c (mb_settings b) x out) as [[r o]| |] eqn:E; cbn [bind fst snd] in H; try discriminate.
    destruct (map_err from_validation_error r) as [a|e] eqn:M; [|discriminate]. injection H as <- <- <-.
    apply map_err_ok in M. subst r. destruct a. destruct (core_transform_valid _ _ _ _ _ _ E) as (Hm & Ho).
    rewrite (core_transform_ok k c (mb_settings b) x out K HD Hm Ho) in E. injection E as <-. auto.
  - destruct (auto_transform k c v b x out st) as [[[[m|e] o] st1]| |] eqn:E; cbn [bind] in H; try discriminate.
    injection H as <- <- <-. destruct (auto_transform_ok _ _ _ _ _ _ _ _ _ _ E) as (s & E1 & <-).
    exact (core_auto_ok _ _ _ _ _ _ _ _ _ _ _ K HD E1).
Qed.

Lemma dispatch_ok : forall {St Er} (show : Er -> string) c v (t : bundle St Er) f x out st h y st', supported c -> (c_debug c = true -> x <> []) ->
  dispatch_transform show c v t f x out st = Ok (ROk h, y, st') ->
  exists k s, f = codec_format k /\ h = codec_header k s /\
    zlen x mod codec_block k = 0 /\ zlen x <= zlen out /\ y = texture_layout k s x ++ skipn (List.length x) out.
Proof.
  intros St Er show c v t f x out st h y st' K HD H. unfold dispatch_transform in H.
  destruct (zlen out <? zlen x) eqn:Z; [discriminate|].
  assert (G : forall k b, (match b with
      | None => Ok (RErr (EFormatHandler (NoBuilderForFormat f)), out, st)
      | Some b =>
          do r <- transform_slice_with_details show k c v b x out st ;;
          match r with
          | (RErr e1, out, st1) => Ok (RErr e1, out, st1)
          | (ROk details, out, st1) => Ok (ROk (codec_header k details), out, st1)
          end
      end) = Ok (ROk h, y, st') -> exists s, h = codec_header k s /\ zlen x mod codec_block k = 0 /\ zlen x <= zlen out /\ y = texture_layout k s x ++ skipn (List.length x) out).
  { intros k [b|] G; [|discriminate].
    destruct (transform_slice_with_details show k c v b x out st) as [[[[s|e] o] st1]| |] eqn:E; cbn [bind] in G; try discriminate.
    injection G as <- <- <-. exists s. split; [reflexivity|]. exact (slice_details_ok _ _ _ _ _ _ _ _ _ _ _ K HD E). }
  destruct f; try discriminate.
  - destruct (G CBc1 (b_bc1 t) H) as (s & A). exists CBc1, s. split; [reflexivity|exact A].
  - destruct (G CBc2 (b_bc2 t) H) as (s & A). exists CBc2, s. split; [reflexivity|exact A].
Qed.

Lemma codec_header_decodes : forall k s, header_format (codec_header k s) = Some (codec_format k) /\
  from_header (match k with CBc1 => bc1_details | CBc2 => bc2_details end) (codec_header k s) = ROk s.
Proof.
  intros [] s; split.
  - exact (proj2 (details_decode (DBc1 s))).
  - exact (proj1 (details_decode (DBc1 s))).
  - exact (proj2 (details_decode (DBc2 s))).
  - exact (proj1 (details_decode (DBc2 s))).
Qed.

Lemma undispatch_ok : forall c k s y out, supported c -> (c_debug c = true -> y <> []) ->
  zlen y mod codec_block k = 0 -> zlen y <= zlen out ->
  exists x, dispatch_untransform c (codec_header k s) y out = Ok (ROk tt, x ++ skipn (List.length x) out) /\
    List.length x = List.length y /\ texture_layout k s x = y.
Proof.
  intros c k s y out K HD Hm Ho. destruct (core_untransform_ok k c s y out K HD Hm Ho) as (x & E & _ & L & T). exists x.
  split; [|split; assumption]. unfold dispatch_untransform. replace (zlen out <? zlen y) with false by lia.
  destruct (codec_header_decodes k s) as (F & D). rewrite F.
  destruct k; cbn [codec_format]; rewrite D; cbn [codec_block] in *.
  - replace (zlen y mod 8 =? 0) with true by lia. cbn [negb]. rewrite E. reflexivity.
  - replace (zlen y mod 16 =? 0) with true by lia. cbn [negb]. rewrite E. reflexivity.
Qed.

Lemma round_layout : forall c k s x out, supported c -> (c_debug c = true -> x <> []) ->
  zlen x mod codec_block k = 0 -> zlen x <= zlen out ->
  dispatch_untransform c (codec_header k s) (texture_layout k s x) out = Ok (ROk tt, x ++ skipn (List.length x) out).
Proof.
  intros c k s x out K HD Hm Ho. pose proof (layout_len k s x Hm) as LL.
  destruct (undispatch_ok c k s (texture_layout k s x) out K) as (x' & E & L & T).
  - intros D Q. apply (HD D). apply length_zero_iff_nil. rewrite <- LL, Q. reflexivity.
  - unfold zlen in *. rewrite LL. exact Hm.
  - unfold zlen in *. rewrite LL. exact Ho.
  - rewrite E. assert (x' = x) as ->; [|reflexivity].
    apply (layout_inj k s); [|lia|exact T]. unfold zlen in *. rewrite L, LL. exact Hm.
Qed.

Lemma dispatch_round_trip : forall (St Er : Type) (show : Er -> string) (c1 c2 : cfg) (v : env) (t : bundle St Er) (f : transform_format)
    (x out out2 : list byte) (st st' : St) (h : header) (y : list byte),
  supported c1 -> supported c2 -> (c_debug c1 = true \/ c_debug c2 = true -> x <> []) ->
  dispatch_transform show c1 v t f x out st = Ok (ROk h, y, st') -> zlen x <= zlen out2 ->
  dispatch_untransform c2 h (firstn (List.length x) y) out2 = Ok (ROk tt, x ++ skipn (List.length x) out2).
Proof.
  intros St Er show c1 c2 v t f x out out2 st st' h y K1 K2 HD H H2.
  destruct (dispatch_ok _ _ _ _ _ _ _ _ _ _ _ K1 ltac:(auto) H) as (k & s & -> & -> & Hm & Ho & ->).
  rewrite firstn_app, <- (layout_len k s x Hm), firstn_all, Nat.sub_diag, app_nil_r, (layout_len k s x Hm).
  apply round_layout; auto.
Qed.

(** ** Installing builders *)
Definition builder_for {St Er} (k : codec) (t : bundle St Er) : option (builder St Er) := match k with CBc1 => b_bc1 t | CBc2 => b_bc2 t end.

Lemma dispatch_builder : forall {St Er} (show : Er -> string) c v (t t' : bundle St Er) k x out st,
  builder_for k t = builder_for k t' ->
  dispatch_transform show c v t (codec_format k) x out st = dispatch_transform show c v t' (codec_format k) x out st.
Proof. intros St Er show c v t t' [] x out st H; unfold dispatch_transform; cbn [codec_format builder_for] in *; rewrite H; reflexivity. Qed.

Lemma installs_other : forall {St Er} (l : list (install St Er)) t k, Forall (fun i => install_codec i <> k) l ->
  builder_for k (fold_left installs l t) = builder_for k t.
Proof.
  intros St Er l. induction l as [|i l IH]; intros t k H; [reflexivity|]. cbn [fold_left].
  rewrite IH by (inversion H; assumption). apply Forall_inv in H. destruct i as [[] b|[] b], k; cbn in *; congruence.
Qed.

Lemma installs_same : forall {St Er} (i : install St Er) t t', builder_for (install_codec i) (installs t i) = builder_for (install_codec i) (installs t' i).
Proof. intros St Er [[] b|[] b] t t'; reflexivity. Qed.

Lemma last_installed : forall (St Er : Type) (show : Er -> string) (c : cfg) (v : env) (before after : list (install St Er)) (i : install St Er)
    (x out : list byte) (st : St),
  Forall (fun j => install_codec j <> install_codec i) after ->
  dispatch_transform show c v (installed (before ++ i :: after)) (codec_format (install_codec i)) x out st =
  dispatch_transform show c v (installed [i]) (codec_format (install_codec i)) x out st.
Proof.
  intros St Er show c v before after i x out st H. apply dispatch_builder. unfold installed. rewrite fold_left_app. cbn [fold_left].
  rewrite installs_other by exact H. apply installs_same.
Qed.

Lemma none_installed : forall (St Er : Type) (show : Er -> string) (c : cfg) (v : env) (l : list (install St Er)) (k : codec)
    (x out : list byte) (st : St),
  Forall (fun j => install_codec j <> k) l -> zlen x <= zlen out ->
  dispatch_transform show c v (installed l) (codec_format k) x out st = Ok (RErr (EFormatHandler (NoBuilderForFormat (codec_format k))), out, st).
Proof.
  intros St Er show c v l k x out st H Ho.
  assert (B : builder_for k (installed l) = None) by (unfold installed; rewrite installs_other by exact H; destruct k; reflexivity).
  unfold dispatch_transform. replace (zlen out <? zlen x) with false by lia.
  destruct k; cbn [codec_format builder_for] in *; rewrite B; reflexivity.
Qed.

Lemma unsupported_format : forall (St Er : Type) (show : Er -> string) (c : cfg) (v : env) (t : bundle St Er) (f : transform_format)
    (x out : list byte) (st : St),
  f <> FBc1 -> f <> FBc2 -> zlen x <= zlen out ->
  dispatch_transform show c v t f x out st = Ok (RErr UnknownTransformFormat, out, st).
Proof.
  intros St Er show c v t f x out st H1 H2 Ho. unfold dispatch_transform. replace (zlen out <? zlen x) with false by lia.
  destruct f; congruence.
Qed.

Lemma dispatch_small : forall (St Er : Type) (show : Er -> string) (c : cfg) (v : env) (t : bundle St Er) (f : transform_format)
    (x out : list byte) (st : St),
  zlen out < zlen x ->
  dispatch_transform show c v t f x out st = Ok (RErr (EFormatHandler (FhOutputBufferTooSmall (zlen x) (zlen out))), out, st).
Proof. intros. unfold dispatch_transform. replace (zlen out <? zlen x) with true by lia. reflexivity. Qed.

Lemma dispatch_manual : forall (St Er : Type) (show : Er -> string) (c : cfg) (v : env) (k : codec) (b : manual_builder)
    (x out : list byte) (st : St),
  zlen x <= zlen out ->
  dispatch_transform show c v (installed [WithManual (St := St) (Er := Er) k b]) (codec_format k) x out st =
  (do r <- core_transform k c (mb_settings b) x out ;;
   Ok (match fst r with ROk _ => ROk (codec_header k (mb_settings b)) | RErr e => RErr (codec_error k (from_validation_error e)) end, snd r, st)).
Proof.
  intros St Er show c v k b x out st Ho. unfold dispatch_transform. replace (zlen out <? zlen x) with false by lia.
  destruct k; cbn [codec_format installed fold_left installs with_bc1_manual with_bc2_manual b_bc1 b_bc2 transform_slice_with_details];
    unfold manual_transform; destruct (core_transform _ _ _ _ _) as [[[[]|e] o]| |]; reflexivity.
Qed.

Lemma dispatch_auto : forall (St Er : Type) (show : Er -> string) (c : cfg) (v : env) (k : codec) (b : auto_builder St Er)
    (x out : list byte) (st : St),
  zlen x <= zlen out ->
  dispatch_transform show c v (installed [WithAuto k b]) (codec_format k) x out st =
  (do r <- core_auto k c v (ab_estimator b) (ab_use_all b) x out st ;;
   match r with
   | (ROk s, y, st') => Ok (ROk (codec_header k s), y, st')
   | (RErr e, y, st') => Ok (RErr (codec_error k (printed show (from_auto_transform_error e))), y, st')
   end).
Proof.
  intros St Er show c v k b x out st Ho. unfold dispatch_transform. replace (zlen out <? zlen x) with false by lia.
  destruct k; cbn [codec_format installed fold_left installs with_bc1_auto with_bc2_auto b_bc1 b_bc2 transform_slice_with_details];
    unfold auto_transform; destruct (core_auto _ _ _ _ _ _ _ _) as [[[[s|e] o] st1]| |]; try reflexivity;
    cbn; rewrite stable_round; destruct s; reflexivity.
Qed.

Lemma dispatch_auto_errors : forall (St Er : Type) (show : Er -> string) (c : cfg) (v : env) (k : codec) (b : auto_builder St Er)
    (x out : list byte) (st : St),
  zlen x <= zlen out ->
  dispatch_transform show c v (installed [WithAuto k b]) (codec_format k) x out st =
  (do r <- core_auto k c v (ab_estimator b) (ab_use_all b) x out st ;;
   match r with
   | (ROk s, y, st') => Ok (ROk (codec_header k s), y, st')
   | (RErr e, y, st') => Ok (RErr ((match k with CBc1 => EBc1 | CBc2 => EBc2 end)
       (match e with
        | AutoInvalidLength len => BcInvalidLength len
        | AutoOutputBufferTooSmall needed actual => BcOutputBufferTooSmall needed actual
        | DetermineBestTransform AllocateError => BcAllocationFailed
        | DetermineBestTransform (SizeEstimationError e) => BcSizeEstimationFailed (show e)
        end)), y, st')
   end).
Proof.
  intros. rewrite dispatch_auto by assumption. destruct (core_auto _ _ _ _ _ _ _ _) as [[[[s|e] y] st']| |]; cbn [bind]; try reflexivity.
  destruct e as [| |[|]]; reflexivity.
Qed.
Lemma builders_alone : forall (St Er : Type) (c : cfg) (v : env) (k : codec) (m : manual_builder) (b : auto_builder St Er) (x out : list byte) (st : St),
  manual_transform k c m x out =
  (do r <- core_transform k c (mb_settings m) x out ;;
   Ok (match fst r with
       | ROk u => ROk u
       | RErr (InvalidLength len) => RErr (BcInvalidLength len)
       | RErr (OutputBufferTooSmall needed actual) => RErr (BcOutputBufferTooSmall needed actual)
       end, snd r)) /\
  manual_untransform k c m x out =
  (do r <- core_untransform k c (mb_settings m) x out ;;
   Ok (match fst r with
       | ROk u => ROk u
       | RErr (InvalidLength len) => RErr (BcInvalidLength len)
       | RErr (OutputBufferTooSmall needed actual) => RErr (BcOutputBufferTooSmall needed actual)
       end, snd r)) /\
  auto_transform k c v b x out st =
  (do r <- core_auto k c v (ab_estimator b) (ab_use_all b) x out st ;;
   match r with
   | (ROk s, y, st') => Ok (ROk (ManualBuilder s), y, st')
   | (RErr e, y, st') => Ok (RErr (match e with
        | AutoInvalidLength len => BcInvalidLength len
        | AutoOutputBufferTooSmall needed actual => BcOutputBufferTooSmall needed actual
        | DetermineBestTransform AllocateError => BcAllocationFailed
        | DetermineBestTransform (SizeEstimationError e) => BcSizeEstimationFailed e
        end), y, st')
   end).
Proof.
  intros. split; [|split].
  - unfold manual_transform. destruct (core_transform _ _ _ _ _) as [[[u|[l|n a]] y]| |]; reflexivity.
  - unfold manual_untransform. destruct (core_untransform _ _ _ _ _) as [[[u|[l|n a]] y]| |]; reflexivity.
  - unfold auto_transform. destruct (core_auto _ _ _ _ _ _ _ _) as [[[[s|e] y] st']| |]; cbn [bind]; try reflexivity.
    + destruct s as [[| | |] sp]; reflexivity.
Qed.

Lemma rust_auto_builder : forall (St Er : Type) (e : estimator St Er) (sets : list bool),
  fold_left auto_use_all sets (auto_new e) = AutoBuilder e (List.last sets false) /\
  fold_left auto_use_all sets (auto_new_ultra e) = AutoBuilder e (List.last sets true).
Proof.
  intros St Er e. assert (G : forall sets b, fold_left auto_use_all sets (AutoBuilder e b) = AutoBuilder e (List.last sets b)).
  { induction sets as [|a sets IH]; intros b; [reflexivity|]. cbn [fold_left auto_use_all ab_estimator]. unfold auto_use_all at 2. cbn [ab_estimator]. rewrite IH.
    destruct sets as [|a2 sets]; [reflexivity|]. cbn [List.last]. f_equal. clear. revert a2. induction sets as [|a3 sets IH]; intros a2; [reflexivity|]. exact (IH a3). }
  intros sets. split; apply G.
Qed.
