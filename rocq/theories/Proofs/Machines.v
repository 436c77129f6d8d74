(** Release builds on different machines do the same. *)
From Verif Require Import Base.Bytes Base.Res Model.Color565 Model.Ycc Model.Kernel Model.Transform Model.Auto Model.Builders Model.Embed Model.Bundle Model.Dds Model.Handlers
  Proofs.KernelCheck Proofs.KernelLoop Proofs.KernelFun Proofs.Shapes Spec.YCoCg Spec.Layout Spec.Files Spec.Release Spec.Machines
  Proofs.LayoutFacts Proofs.ShapeLayout Proofs.Families Proofs.TransformFacts Proofs.SliceFacts Proofs.TransformProps Proofs.ReleaseFacts Proofs.TransformProps.
From Verif Require Import Model.CApi Model.Cli Spec.CApi Spec.Cli Spec.ReleaseRuns Proofs.ReleaseCalls Proofs.ReleaseRuns.
From Coq Require Import String ZifyBool ZifyNat.
Open Scope list_scope.
Open Scope Z_scope.

Section Search.
Context {St Er S : Type}.
Variables (t t' : S -> mem -> res mem) (e e' : mem -> St -> res (result Z Er * St)) (P : mem -> Prop).
Hypotheses (T : forall s m, P m -> t s m = t' s m) (TP : forall s m m', P m -> t s m = Ok m' -> P m')
  (E : forall m st, P m -> e m st = e' m st).
Lemma loop_same : forall order best size last m st, P m ->
  search_loop t e order best size last m st = search_loop t' e' order best size last m st /\
  (forall r m' st', search_loop t e order best size last m st = Ok (r, m', st') -> P m').
Proof.
  induction order as [|s rest IH]; intros best size last m st H; cbn [search_loop].
  - split; [reflexivity|]. intros r m' st' Q. congruence.
  - rewrite <- (T s m H). destruct (t s m) as [m1|w|w] eqn:Q1; cbn [bind]; [|split; [reflexivity|congruence]..]. pose proof (TP s m m1 H Q1) as H1.
    rewrite <- (E m1 st H1). destruct (e m1 st) as [[[z|er] st1]|w|w] eqn:Q2; cbn [bind]; try (split; [reflexivity|congruence]).
    destruct (z <? size); apply IH; exact H1.
Qed.
End Search.

Lemma search_same : forall St Er S v (e : estimator St Er) n (t t' : S -> mem -> res mem) (es es' : Z -> mem -> St -> res (result Z Er * St)) same default order (P : mem -> Prop) m st,
  (forall s m, P m -> t s m = t' s m) -> (forall s m m', P m -> t s m = Ok m' -> P m') ->
  (forall z m st, P m -> es z m st = es' z m st) -> P m ->
  search v e n t es same default order m st = search v e n t' es' same default order m st.
Proof.
  intros St Er S v e n t t' es es' same default order P m st T TP E H. unfold search.
  destruct (max_compressed_size e st n) as [[z|er] st1]; [|reflexivity].
  destruct (negb (z =? 0) && negb (alloc_ok v z)); [reflexivity|].
  destruct (loop_same t t' (es z) (es' z) P T TP (E z) order default (usize_max v) default m st1 H) as (L & LP). rewrite <- L.
  destruct (search_loop t (es z) order default (usize_max v) default m st1) as [[[[[best last]|er] m1] st2]|w|w] eqn:Q; cbn [bind]; try reflexivity.
  destruct (same best last); [reflexivity|]. rewrite (T best m1 (LP _ _ _ eq_refl)). reflexivity.
Qed.

Lemma auto_checked_same : forall St Er S blk (run run' : ptr -> ptr -> Z -> mem -> St -> res (result S (determine_error Er) * mem * St)) x out st, 0 < blk ->
  (forall N, 0 <= N -> zlen x = blk * N -> zlen x <= zlen out ->
     run (Ptr BIn 0) (Ptr BOut 0) (blk * N) (Mem x [] out) st = run' (Ptr BIn 0) (Ptr BOut 0) (blk * N) (Mem x [] out) st) ->
  auto_checked blk run x out st = auto_checked blk run' x out st.
Proof.
  intros St Er S blk run run' x out st Hb H. unfold auto_checked.
  destruct (zlen x mod blk =? 0) eqn:M; cbn [negb]; [|reflexivity].
  destruct (zlen out <? zlen x) eqn:L; [reflexivity|].
  pose proof (zlen_nonneg _ x). assert (E : zlen x = blk * (zlen x / blk)) by (pose proof (Z.div_mod (zlen x) blk ltac:(lia)); lia).
  f_equal. rewrite E. apply H; [apply Z.div_pos; lia|exact E|lia].
Qed.

Section Two.
Variables (c1 c2 : cfg).
Hypotheses (K1 : supported c1) (K2 : supported c2) (D1 : c_debug c1 = false) (D2 : c_debug c2 = false).
Let r1 : forall c, supported c -> c_debug c = false -> release_build c = c.
Proof. intros [] _ D. cbn in D. subst. reflexivity. Qed.

Section AutoTwo.
Context {St Er : Type}.
Variables (v : Auto.env) (e : estimator St Er).
Lemma auto_same1 : forall all x out st, transform_bc1_auto c1 v e all x out st = transform_bc1_auto c2 v e all x out st.
Proof.
  intros all x out st. apply auto_checked_same; [lia|]. intros N HN E L. unfold transform_bc1_auto_ptr.
  pose proof (release1 c1) as R1. pose proof (release1 c2) as R2. rewrite (r1 c1 K1 D1) in R1. rewrite (r1 c2 K2 D2) in R2.
  apply (search_same _ _ _ _ _ _ _ _ _ _ _ _ _ (sized (8 * N) (8 * N))).
  - intros s m (A & B). rewrite (R1 m N (proj1 K1) HN s A B), (R2 m N (proj1 K2) HN s A B). reflexivity.
  - intros s m m' (A & B) Q. rewrite (R1 m N (proj1 K1) HN s A B) in Q. apply ok_inj in Q. subst m'. apply len_kept; [split; assumption|].
    destruct (bc1_fam (decorrelation_mode s) (split_colour_endpoints s)) as (sht & shu & FM).
    unfold bc1_layout, zlen. rewrite (fam_len _ _ _ _ _ _ FM ltac:(lia)) by (apply (whole_blocks 8); [lia|reflexivity|lia..]).
    pose proof (zlen_slice _ (m_in m) 0 (8 * N)) as Z. unfold zlen in Z at 2. lia.
  - intros. reflexivity.
  - split; cbn [m_in m_out]; lia.
Qed.
Lemma auto_same2 : forall all x out st, transform_bc2_auto c1 v e all x out st = transform_bc2_auto c2 v e all x out st.
Proof.
  intros all x out st. apply auto_checked_same; [lia|]. intros N HN E L. unfold transform_bc2_auto_ptr.
  pose proof (release2 c1) as R1. pose proof (release2 c2) as R2. rewrite (r1 c1 K1 D1) in R1. rewrite (r1 c2 K2 D2) in R2.
  apply (search_same _ _ _ _ _ _ _ _ _ _ _ _ _ (sized (16 * N) (16 * N))).
  - intros s m (A & B). rewrite (R1 m N (proj1 K1) HN s (vl_of _ K1) A B), (R2 m N (proj1 K2) HN s (vl_of _ K2) A B). reflexivity.
  - intros s m m' (A & B) Q. rewrite (R1 m N (proj1 K1) HN s (vl_of _ K1) A B) in Q. apply ok_inj in Q. subst m'. apply len_kept; [split; assumption|].
    destruct (bc2_fam (decorrelation_mode s) (split_colour_endpoints s)) as (sht & shu & FM).
    unfold bc2_layout, zlen. rewrite (fam_len _ _ _ _ _ _ FM ltac:(lia)) by (apply (whole_blocks 16); [lia|reflexivity|lia..]).
    pose proof (zlen_slice _ (m_in m) 0 (16 * N)) as Z. unfold zlen in Z at 2. lia.
  - intros. reflexivity.
  - split; cbn [m_in m_out]; lia.
Qed.
Lemma auto_same3 : forall all x out st, transform_bc3_auto c1 v e all x out st = transform_bc3_auto c2 v e all x out st.
Proof.
  intros all x out st. apply auto_checked_same; [lia|]. intros N HN E L. unfold transform_bc3_auto_ptr.
  pose proof (release3 c1) as R1. pose proof (release3 c2) as R2. rewrite (r1 c1 K1 D1) in R1. rewrite (r1 c2 K2 D2) in R2.
  apply (search_same _ _ _ _ _ _ _ _ _ _ _ _ _ (sized (16 * N) (16 * N))).
  - intros s m (A & B). rewrite (R1 m N (proj1 K1) HN s A B), (R2 m N (proj1 K2) HN s A B). reflexivity.
  - intros s m m' (A & B) Q. rewrite (R1 m N (proj1 K1) HN s A B) in Q. apply ok_inj in Q. subst m'. apply len_kept; [split; assumption|].
    destruct (bc3_fam (decorrelation_mode3 s) (split_alpha_endpoints s) (split_colour_endpoints3 s)) as (sht & shu & FM).
    unfold bc3_layout, zlen. rewrite (fam_len _ _ _ _ _ _ FM ltac:(lia)) by (apply (whole_blocks 16); [lia|reflexivity|lia..]).
    pose proof (zlen_slice _ (m_in m) 0 (16 * N)) as Z. unfold zlen in Z at 2. lia.
  - intros z m st' _. unfold estimate_bc3. rewrite D1, D2. reflexivity.
  - split; cbn [m_in m_out]; lia.
Qed.
End AutoTwo.

Lemma slices_same : (forall s x out, transform_bc1 c1 s x out = transform_bc1 c2 s x out /\ untransform_bc1 c1 s x out = untransform_bc1 c2 s x out) /\
  (forall s x out, transform_bc2 c1 s x out = transform_bc2 c2 s x out /\ untransform_bc2 c1 s x out = untransform_bc2 c2 s x out) /\
  (forall s x out, transform_bc3 c1 s x out = transform_bc3 c2 s x out /\ untransform_bc3 c1 s x out = untransform_bc3 c2 s x out).
Proof.
  split; [|split]; intros s x out.
  - apply lC06_bc1_slice_cpu_independent; [exact (proj1 K1)|exact (proj1 K2)|]. rewrite D1, D2. intros [D|D]; discriminate D.
  - apply lC07_bc2_slice_cpu_independent; [exact (proj1 K1)|exact (proj1 K2)|exact (proj2 K1)|exact (proj2 K2)].
  - apply lC08_bc3_slice_cpu_independent; [exact (proj1 K1)|exact (proj1 K2)|]. rewrite D1, D2. intros [D|D]; discriminate D.
Qed.
Lemma core_same : forall k s x out, core_transform k c1 s x out = core_transform k c2 s x out /\ core_untransform k c1 s x out = core_untransform k c2 s x out.
Proof. intros [] s x out; [apply (proj1 slices_same)|apply (proj1 (proj2 slices_same))]. Qed.
Lemma core_auto_same : forall St Er k v (e : estimator St Er) all x out st, core_auto k c1 v e all x out st = core_auto k c2 v e all x out st.
Proof. intros St Er [] v e all x out st; [apply auto_same1|apply auto_same2]. Qed.
Lemma dispatch_same : forall St Er (show : Er -> string) v (t : bundle St Er) f x out st, dispatch_transform show c1 v t f x out st = dispatch_transform show c2 v t f x out st.
Proof.
  intros St Er show v t f x out st. unfold dispatch_transform. destruct (zlen out <? zlen x); [reflexivity|]. cbv zeta.
  assert (D : forall k b, transform_slice_with_details show k c1 v b x out st = transform_slice_with_details show k c2 v b x out st).
  { intros k [b|b]; unfold transform_slice_with_details, manual_transform, auto_transform; cbv zeta.
    - rewrite (proj1 (core_same k _ x out)). reflexivity.
    - rewrite core_auto_same. reflexivity. }
  destruct f; try reflexivity; [destruct (b_bc1 t)|destruct (b_bc2 t)]; try reflexivity; rewrite D; reflexivity.
Qed.
Lemma undispatch_same : forall h x out, dispatch_untransform c1 h x out = dispatch_untransform c2 h x out.
Proof.
  intros h x out. unfold dispatch_untransform. destruct (zlen out <? zlen x) eqn:L; [reflexivity|]. cbv zeta.
  pose proof (zlen_nonneg _ x).
  destruct (header_format h) as [[]|]; try reflexivity.
  - destruct (from_header bc1_details h) as [s|]; [|reflexivity]. cbn [codec_block]. destruct (zlen x mod 8 =? 0) eqn:M; cbn [negb]; [|reflexivity].
    cbn [core_untransform_ptr].
    destruct (lC06_bc1_cpu_independent c1 c2 s x [] out 0 0 (zlen x) (proj1 K1) (proj1 K2)) as (mt & mu & _ & -> & ->); try lia. reflexivity.
  - destruct (from_header bc2_details h) as [s|]; [|reflexivity]. cbn [codec_block]. destruct (zlen x mod 16 =? 0) eqn:M; cbn [negb]; [|reflexivity].
    cbn [core_untransform_ptr].
    destruct (lC07_bc2_cpu_independent c1 c2 s x [] out 0 0 (zlen x) (proj1 K1) (proj1 K2) (proj2 K1) (proj2 K2)) as (mt & mu & _ & -> & ->); try lia. reflexivity.
Qed.
Lemma dds_same : forall St Er (show : Er -> string) v (t : bundle St Er) x out st, dds_transform_bundle show c1 v t x out st = dds_transform_bundle show c2 v t x out st.
Proof.
  intros St Er show v t x out st. unfold dds_transform_bundle. rewrite D1, D2. destruct (zlen out <? zlen x); [reflexivity|].
  destruct (parse_dds false x) as [[i|]|w|w]; cbn [bind]; try reflexivity. cbv zeta.
  destruct (usize_add false v (i_data_offset i) (i_data_length i)) as [n|w|w]; cbn [bind]; try reflexivity. destruct (zlen x <? n); [reflexivity|].
  destruct (Dds.range x 0 (i_data_offset i)) as [hd|w|w]; cbn [bind]; try reflexivity.
  destruct (copy_range out 0 (i_data_offset i) hd) as [o|w|w]; cbn [bind]; try reflexivity.
  destruct (dds_format_to_transform_format (i_format i) false); [|reflexivity].
  destruct (Dds.range x (i_data_offset i) n) as [T|w|w]; cbn [bind]; try reflexivity.
  destruct (Dds.range o (i_data_offset i) n) as [T'|w|w]; cbn [bind]; try reflexivity.
  rewrite dispatch_same. reflexivity.
Qed.
Lemma undds_same : forall v x out, dds_untransform c1 v x out = dds_untransform c2 v x out.
Proof.
  intros v x out. unfold dds_untransform. rewrite D1, D2. destruct (zlen x <? 4); [reflexivity|]. destruct (zlen out <? zlen x); [reflexivity|]. cbv zeta.
  destruct (parse_dds_ignore_magic false x) as [[i|]|w|w]; cbn [bind]; try reflexivity.
  destruct (usize_add false v (i_data_offset i) (i_data_length i)) as [n|w|w]; cbn [bind]; try reflexivity. destruct (zlen x <? n); [reflexivity|].
  destruct (copy_range out 0 4 (u32_bytes DDS_MAGIC)) as [o1|w|w]; cbn [bind]; try reflexivity.
  destruct (Dds.range x 4 (i_data_offset i)) as [hd|w|w]; cbn [bind]; try reflexivity.
  destruct (copy_range o1 4 (i_data_offset i) hd) as [o|w|w]; cbn [bind]; try reflexivity.
  destruct (Dds.range x (i_data_offset i) n) as [T|w|w]; cbn [bind]; try reflexivity.
  destruct (Dds.range o (i_data_offset i) n) as [T'|w|w]; cbn [bind]; try reflexivity.
  rewrite undispatch_same. reflexivity.
Qed.
End Two.

(** ** Any build on one machine against a release build on another *)
Lemma agree_eq : forall A (a b d : res A), agree a b -> b = d -> agree a d. Proof. intros A a b d H <-. exact H. Qed.
Lemma is_release : forall c, c_debug c = false -> release_build c = c.
Proof. intros [] D. cbn in D. subst. reflexivity. Qed.

Section Mixed.
Variables (c1 c2 : cfg).
Hypotheses (K1 : supported c1) (K2 : supported c2) (D2 : c_debug c2 = false).
Let KR := release_supported c1 K1.
Lemma mixed_auto : forall St Er v (e : estimator St Er) all x out st,
  agree (transform_bc1_auto c1 v e all x out st) (transform_bc1_auto c2 v e all x out st) /\
  agree (transform_bc2_auto c1 v e all x out st) (transform_bc2_auto c2 v e all x out st) /\
  agree (transform_bc3_auto c1 v e all x out st) (transform_bc3_auto c2 v e all x out st).
Proof.
  intros St Er v e all x out st. split; [|split].
  - apply (agree_eq _ _ _ _ (auto1 c1 v e all x out st (proj1 K1))). exact (auto_same1 _ c2 KR K2 eq_refl D2 v e all x out st).
  - apply (agree_eq _ _ _ _ (auto2 c1 v e all x out st K1)). exact (auto_same2 _ c2 KR K2 eq_refl D2 v e all x out st).
  - apply (agree_eq _ _ _ _ (auto3 c1 v e all x out st (proj1 K1))). exact (auto_same3 _ c2 KR K2 eq_refl D2 v e all x out st).
Qed.
Lemma mixed_core_auto : forall St Er k v (e : estimator St Er) all x out st, agree (core_auto k c1 v e all x out st) (core_auto k c2 v e all x out st).
Proof. intros St Er [] v e all x out st; apply mixed_auto. Qed.
Lemma mixed_core : forall k s x out, agree (core_transform k c1 s x out) (core_transform k c2 s x out) /\ agree (core_untransform k c1 s x out) (core_untransform k c2 s x out).
Proof.
  intros k s x out. destruct (core_same _ c2 KR K2 eq_refl D2 k s x out) as (A & B). split.
  - apply (agree_eq _ _ _ _ (core_agree k c1 s x out K1)). exact A.
  - apply (agree_eq _ _ _ _ (core_un_agree k c1 s x out K1)). exact B.
Qed.
Lemma mixed_dds : forall St Er (show : Er -> string) v (t : bundle St Er) x out st,
  agree (dds_transform_bundle show c1 v t x out st) (dds_transform_bundle show c2 v t x out st).
Proof. intros St Er show v t x out st. apply (agree_eq _ _ _ _ (dds_agree St Er show c1 v t x out st K1)). exact (dds_same _ c2 KR K2 eq_refl D2 St Er show v t x out st). Qed.
Lemma mixed_undds : forall v x out, agree (dds_untransform c1 v x out) (dds_untransform c2 v x out).
Proof. intros v x out. apply (agree_eq _ _ _ _ (undds_agree c1 v x out (proj1 K1))). exact (undds_same _ c2 KR K2 eq_refl D2 v x out). Qed.

(** *** Files *)
Section Files.
Context {St Er : Type}.
Variables (show : Er -> string) (v : Auto.env).
Let h := @dds_handler St Er show c1 v.
Let h' := @dds_handler St Er show c2 v.
Lemma m_slice : forall x out b w, agree (transform_slice_with_bundle h x out b w) (transform_slice_with_bundle h' x out b w).
Proof. intros x out b w. unfold transform_slice_with_bundle. destruct (zlen out <? zlen x); [apply agree_refl|]. exact (mixed_dds St Er show v b x out w). Qed.
Lemma m_unslice : forall x out w, agree (untransform_slice h x out w) (untransform_slice h' x out w).
Proof.
  intros x out w. unfold untransform_slice. destruct (zlen out <? zlen x); [apply agree_refl|]. cbn [h_untransform h h' dds_handler].
  apply agree_bind; [exact (mixed_undds v x out)|intros; apply agree_refl].
Qed.
Lemma m_files : forall o ip op x out b fs w,
  agree (transform_file_with_handler o h ip op b fs w) (transform_file_with_handler o h' ip op b fs w) /\
  agree (untransform_file_with_handler o h ip op fs w) (untransform_file_with_handler o h' ip op fs w) /\
  agree (transform_file_to_slice_with_handler o h ip out b fs w) (transform_file_to_slice_with_handler o h' ip out b fs w) /\
  agree (untransform_file_to_slice_with_handler o h ip out fs w) (untransform_file_to_slice_with_handler o h' ip out fs w) /\
  agree (transform_slice_to_file_with_handler o h x op b fs w) (transform_slice_to_file_with_handler o h' x op b fs w) /\
  agree (untransform_slice_to_file_with_handler o h x op fs w) (untransform_slice_to_file_with_handler o h' x op fs w).
Proof.
  intros o ip op x out b fs w.
  unfold transform_file_with_handler, untransform_file_with_handler, transform_file_to_slice_with_handler, untransform_file_to_slice_with_handler,
    transform_slice_to_file_with_handler, untransform_slice_to_file_with_handler.
  split; [|split; [|split; [|split; [|split]]]].
  - destruct (map_input o fs ip) as [z|]; [|apply agree_refl]. apply new_file_agree. intros. apply m_slice.
  - destruct (map_input o fs ip) as [z|]; [|apply agree_refl]. apply new_file_agree. intros. apply m_unslice.
  - destruct (map_input o fs ip) as [z|]; [|apply agree_refl]. apply prefix_agree. intros. apply m_slice.
  - destruct (map_input o fs ip) as [z|]; [|apply agree_refl]. apply prefix_agree. intros. apply m_unslice.
  - apply new_file_agree. intros. apply m_slice.
  - apply new_file_agree. intros. apply m_unslice.
Qed.
(** *** Runs of the tool *)
Variables (utf8 : string -> bool) (cmd : command (bundle St Er)).
Lemma m_accepts : forall x p w, agree (accepts utf8 cmd h x p w) (accepts utf8 cmd h' x p w).
Proof.
  intros x p w. unfold accepts. destruct cmd; cbn [h h' dds_handler h_can_handle h_can_handle_untransform]; rewrite D2;
    (apply agree_bind; [|intros; apply agree_refl]); [apply can_agree|apply can_un_agree].
Qed.
Lemma m_work : forall x out w, agree (work cmd h x out w) (work cmd h' x out w).
Proof. intros x out w. unfold work. destruct cmd; [exact (m_slice x out b w)|exact (m_unslice x out w)]. Qed.
Lemma m_reachable : forall I O entries fs s, reachable utf8 cmd [h] I O entries fs s ->
  exists s', reachable utf8 cmd [h'] I O entries fs s' /\ s_files s = s_files s' /\ s_total s = s_total s' /\ Forall2 equally_far_or_panicked (s_tasks s) (s_tasks s').
Proof. intros I O. exact (reachable_other utf8 cmd h h' I O m_accepts m_work). Qed.
Lemma m_process : forall I O entries fs st total,
  agree (process_files utf8 cmd [h] I O (c_debug c1) entries fs st total) (process_files utf8 cmd [h'] I O false entries fs st total).
Proof. intros I O. exact (files_agree utf8 cmd h h' I O m_accepts m_work (c_debug c1)). Qed.
End Files.

(** *** C programs *)
Section C.
Context {St : Type}.
Variables (k : codec) (v : Auto.env).
Lemma m_call : forall (call : c_call St) h st, agree (run_c_call k c1 v call h st) (run_c_call k c2 v call h st).
Proof.
  intros call h st. destruct call; cbn [run_c_call]; try apply agree_refl; (apply agree_bind; [|intros; apply agree_refl]).
  - apply manual_call_agree. intros. unfold manual_transform. apply agree_bind; [apply mixed_core|]. intros; apply agree_refl.
  - apply manual_call_agree. intros. unfold manual_untransform. apply agree_bind; [apply mixed_core|]. intros; apply agree_refl.
  - match goal with |- agree (auto_transform_c _ _ _ ?b ?d ?n ?o ?m ?cell _ _) _ => destruct b as [b'|], d as [d'|], o as [o'|], cell as [cell'|] end;
      cbn [auto_transform_c]; try apply agree_refl.
    do 3 (apply agree_bind; [apply agree_refl|intros ? _]). cbv zeta.
    apply agree_bind; [|intros; apply agree_refl]. unfold auto_transform. apply agree_bind; [apply mixed_core_auto|]. intros; apply agree_refl.
Qed.
Lemma m_ran : forall past h st, ran k c1 v past h st -> ran (St := St) k c2 v past h st.
Proof.
  intros past h st R. induction R as [st|past h st call a h1 st1 R IH E]; [constructor|].
  econstructor; [exact IH|]. destruct (m_call call h st) as [Q|(w & Q)]; rewrite E in Q; [symmetry; exact Q|discriminate Q].
Qed.
End C.
End Mixed.

(** ** 32-bit and 64-bit addresses *)
Lemma loop_wide : forall St Er S (t : S -> mem -> res mem) (es : mem -> St -> res (result Z Er * St)) order best b1 b2 last m st,
  order <> [] -> (forall m st z st', es m st = Ok (ROk z, st') -> z < b1 /\ z < b2) ->
  search_loop t es order best b1 last m st = search_loop t es order best b2 last m st.
Proof.
  intros St Er S t es [|s rest] best b1 b2 last m st NE H; [congruence|]. cbn [search_loop].
  destruct (t s m) as [m1|w|w]; cbn [bind]; try reflexivity. destruct (es m1 st) as [[[z|er] st1]|w|w] eqn:E; cbn [bind]; try reflexivity.
  destruct (H m1 st z st1 E). replace (z <? b1) with true by lia. replace (z <? b2) with true by lia. reflexivity.
Qed.
Lemma search_wide : forall St Er S v1 v2 (e : estimator St Er) n (t : S -> mem -> res mem) es same default order m st,
  order <> [] -> (forall z m st r st', es z m st = Ok (ROk r, st') -> r < usize_max v1 /\ r < usize_max v2) -> (forall z, alloc_ok v1 z = alloc_ok v2 z) ->
  search v1 e n t es same default order m st = search v2 e n t es same default order m st.
Proof.
  intros St Er S v1 v2 e n t es same default order m st NE H A. unfold search.
  destruct (max_compressed_size e st n) as [[z|er] st1]; [|reflexivity]. rewrite (A z). destruct (negb (z =? 0) && negb (alloc_ok v2 z)); [reflexivity|].
  rewrite (loop_wide _ _ _ t (es z) order default (usize_max v1) (usize_max v2)) by (exact NE || exact (H z)). reflexivity.
Qed.
Section Wide.
Context {St Er : Type}.
Variables (c : cfg) (v1 v2 : Auto.env).
Hypotheses (U1 : 2 ^ 32 - 1 <= usize_max v1) (U2 : 2 ^ 32 - 1 <= usize_max v2) (A : forall z, alloc_ok v1 z = alloc_ok v2 z).
Lemma wide_core_auto : forall k (e : estimator St Er) all x out st, modest e (2 ^ 32 - 1) -> core_auto k c v1 e all x out st = core_auto k c v2 e all x out st.
Proof.
  assert (G : forall (e : estimator St Er) p n z m st r st', modest e (2 ^ 32 - 1) -> estimate_at e p n z m st = Ok (ROk r, st') -> r < usize_max v1 /\ r < usize_max v2).
  { intros e p n z m st r st' M H. unfold estimate_at in H. destruct (mload m p n); cbn [bind] in H; try discriminate. apply ok_inj in H. apply M in H. lia. }
  intros [] e all x out st M; (apply auto_checked_same; [lia|]; intros N HN E L; unfold transform_bc1_auto_ptr, transform_bc2_auto_ptr; apply search_wide; [destruct all; discriminate| |exact A]).
  - intros z m st0 r st' H. exact (G e _ _ _ _ _ _ _ M H).
  - intros z m st0 r st' H. destruct (ptr_add m (Ptr BOut 0) (16 * N / 2)); cbn [bind] in H; try discriminate. exact (G e _ _ _ _ _ _ _ M H).
Qed.
Lemma wide_dispatch : forall (show : Er -> string) (t : bundle St Er) f x out st, modest_bundle t (2 ^ 32 - 1) ->
  dispatch_transform show c v1 t f x out st = dispatch_transform show c v2 t f x out st.
Proof.
  intros show t f x out st M. unfold dispatch_transform. destruct (zlen out <? zlen x); [reflexivity|]. cbv zeta.
  assert (D : forall k b, b_bc1 t = Some b \/ b_bc2 t = Some b -> transform_slice_with_details show k c v1 b x out st = transform_slice_with_details show k c v2 b x out st).
  { intros k [b|b] B; unfold transform_slice_with_details, auto_transform; cbv zeta; [reflexivity|].
    rewrite (wide_core_auto k (ab_estimator b) (ab_use_all b) x out st (M b B)). reflexivity. }
  destruct f; try reflexivity; [destruct (b_bc1 t) as [b|] eqn:E|destruct (b_bc2 t) as [b|] eqn:E]; try reflexivity; rewrite (D _ b) by auto; reflexivity.
Qed.
Lemma wide_dds : forall (show : Er -> string) (t : bundle St Er) x out st, modest_bundle t (2 ^ 32 - 1) ->
  (forall i, parse_dds (c_debug c) x = Ok (Some i) -> i_data_offset i + i_data_length i <= usize_max v1 /\ i_data_offset i + i_data_length i <= usize_max v2) ->
  dds_transform_bundle show c v1 t x out st = dds_transform_bundle show c v2 t x out st.
Proof.
  intros show t x out st M F. unfold dds_transform_bundle. destruct (zlen out <? zlen x); [reflexivity|].
  destruct (parse_dds (c_debug c) x) as [[i|]|w|w]; cbn [bind]; try reflexivity. cbv zeta. destruct (F i eq_refl) as (F1 & F2). unfold usize_add.
  replace (i_data_offset i + i_data_length i <=? usize_max v1) with true by lia. replace (i_data_offset i + i_data_length i <=? usize_max v2) with true by lia.
  cbn [bind]. destruct (zlen x <? _); [reflexivity|].
  destruct (Dds.range x 0 (i_data_offset i)) as [hd|w|w]; cbn [bind]; try reflexivity.
  destruct (copy_range out 0 (i_data_offset i) hd) as [o|w|w]; cbn [bind]; try reflexivity.
  destruct (dds_format_to_transform_format (i_format i) false); [|reflexivity].
  destruct (Dds.range x (i_data_offset i) _) as [T|w|w]; cbn [bind]; try reflexivity.
  destruct (Dds.range o (i_data_offset i) _) as [T'|w|w]; cbn [bind]; try reflexivity.
  rewrite (wide_dispatch show t a T T' st M). reflexivity.
Qed.
Lemma wide_undds : forall x out,
  (forall i, parse_dds_ignore_magic (c_debug c) x = Ok (Some i) -> i_data_offset i + i_data_length i <= usize_max v1 /\ i_data_offset i + i_data_length i <= usize_max v2) ->
  dds_untransform c v1 x out = dds_untransform c v2 x out.
Proof.
  intros x out F. unfold dds_untransform. destruct (zlen x <? 4); [reflexivity|]. destruct (zlen out <? zlen x); [reflexivity|]. cbv zeta.
  destruct (parse_dds_ignore_magic (c_debug c) x) as [[i|]|w|w]; cbn [bind]; try reflexivity. destruct (F i eq_refl) as (F1 & F2). unfold usize_add.
  replace (i_data_offset i + i_data_length i <=? usize_max v1) with true by lia. replace (i_data_offset i + i_data_length i <=? usize_max v2) with true by lia.
  reflexivity.
Qed.
End Wide.
Lemma address_width : forall (St Er : Type) (show : Er -> string) (c1 c2 : cfg) (v1 v2 : Auto.env) (t : bundle St Er) (x out : list byte) (st : St),
  supported c1 -> supported c2 -> c_debug c2 = false ->
  2 ^ 32 - 1 <= usize_max v1 -> 2 ^ 32 - 1 <= usize_max v2 -> (forall n, alloc_ok v1 n = alloc_ok v2 n) -> modest_bundle t (2 ^ 32 - 1) ->
  (forall i, parse_dds_ignore_magic false x = Ok (Some i) -> i_data_offset i + i_data_length i < 2 ^ 32) ->
  agree (dds_transform_bundle show c1 v1 t x out st) (dds_transform_bundle show c2 v2 t x out st) /\
  agree (dds_untransform c1 v1 x out) (dds_untransform c2 v2 x out).
Proof.
  intros St Er show c1 c2 v1 v2 t x out st K1 K2 D2 U1 U2 A M F.
  assert (G : forall i, parse_dds_ignore_magic (c_debug c2) x = Ok (Some i) -> i_data_offset i + i_data_length i <= usize_max v1 /\ i_data_offset i + i_data_length i <= usize_max v2).
  { intros i P. rewrite D2 in P. specialize (F i P). lia. }
  split.
  - apply (agree_eq _ _ _ _ (mixed_dds c1 c2 K1 K2 D2 St Er show v1 t x out st)). apply wide_dds; try assumption.
    intros i P. apply G. unfold parse_dds in P. destruct (negb (likely_dds x)); [discriminate P|exact P].
  - apply (agree_eq _ _ _ _ (mixed_undds c1 c2 K1 K2 D2 v1 x out)). apply wide_undds; try assumption.
Qed.
