(** The estimators of the project in the searches of big-endian machines: what
    Proofs/LtuFacts.v, Proofs/ZstdFacts.v and Proofs/ZstdSmallest.v prove for
    little-endian ones. *)
From Verif Require Import Base.Bytes Base.Res Model.Color565 Model.Kernel Model.Transform Model.Auto Model.Ltu Model.Zstd Model.BigEndian Model.BeTransform Model.BeFiles
  Spec.YCoCg Spec.Layout Spec.BigEndian Spec.Estimator Spec.Ltu Spec.Zstd Spec.Answers Spec.ZstdSizes Spec.BeFiles
  Proofs.LayoutFacts Proofs.AutoFacts Proofs.AutoProps Proofs.AutoTheorems Proofs.AutoAnswers Proofs.LtuFacts Proofs.ZstdFacts Proofs.ZstdSmallest
  Proofs.BeAutoProps Proofs.BeAutoTheorems.
From Coq Require Import ZifyBool ZifyNat.
Open Scope list_scope.
Open Scope Z_scope.

Section Cut.
Variables (matches : list byte -> Z) (c : cfg) (v : env) (all : bool) (x out : list byte) (b : Z).
Hypothesis (M : forall d, 0 <= matches d) (B0 : 0 <= b).
Let v' := Env (usize_max v) (fun _ => true).
Lemma be_bc1_cut : zlen x <= b ->
  be_transform_bc1_auto c v (ltu matches) all x out tt = be_transform_bc1_auto c v' (ltu (cut b matches)) all x out tt.
Proof.
  intros B. unfold be_transform_bc1_auto, auto_checked. pose proof (zlen_nonneg _ x).
  destruct (negb (zlen x mod 8 =? 0)); [reflexivity|]. destruct (zlen out <? zlen x); [reflexivity|].
  unfold be_transform_bc1_auto_ptr. erewrite (search_cut matches v b); [reflexivity|]. intros s m st. apply estimate_at_cut; first [exact M|exact B0|lia].
Qed.
Lemma be_bc2_cut : zlen x <= b ->
  be_transform_bc2_auto c v (ltu matches) all x out tt = be_transform_bc2_auto c v' (ltu (cut b matches)) all x out tt.
Proof.
  intros B. unfold be_transform_bc2_auto, auto_checked. pose proof (zlen_nonneg _ x).
  destruct (negb (zlen x mod 16 =? 0)); [reflexivity|]. destruct (zlen out <? zlen x); [reflexivity|].
  unfold be_transform_bc2_auto_ptr. erewrite (search_cut matches v b); [reflexivity|]. intros s m st. cbv beta.
  destruct (ptr_add m (Ptr BOut 0) (zlen x / 2)) as [p| |]; [|reflexivity|reflexivity]. cbn [bind]. apply estimate_at_cut; first [exact M|exact B0|lia].
Qed.
Lemma be_bc3_cut : zlen x <= b ->
  be_transform_bc3_auto c v (ltu matches) all x out tt = be_transform_bc3_auto c v' (ltu (cut b matches)) all x out tt.
Proof.
  intros B. unfold be_transform_bc3_auto, auto_checked. pose proof (zlen_nonneg _ x).
  destruct (negb (zlen x mod 16 =? 0)); [reflexivity|]. destruct (zlen out <? zlen x); [reflexivity|].
  unfold be_transform_bc3_auto_ptr. erewrite (search_cut matches v b); [reflexivity|]. intros s m st. unfold estimate_bc3.
  rewrite (estimate_at_cut matches b M B0) by lia.
  destruct (estimate_at (ltu (cut b matches)) (Ptr BOut 0) (zlen x / 16 * 2) s m st) as [[[za|e] st1]| |]; [|reflexivity|reflexivity|reflexivity].
  cbn [bind]. destruct (ptr_add m (Ptr BOut 0) (zlen x / 2)) as [p| |]; [|reflexivity|reflexivity]. cbn [bind].
  rewrite (estimate_at_cut matches b M B0) by lia. reflexivity.
Qed.
End Cut.

Lemma be_colours_len : forall v sp off bs, (List.length (lay (be_colour_fields v sp off) bs) <= 4 * List.length bs)%nat.
Proof.
  intros v sp off bs. unfold lay, be_colour_fields. destruct sp; cbn [map List.concat]; rewrite ?app_length, ?app_nil_r.
  - assert (C : forall o (a : list byte), (List.length (be_colour v o a) <= 2)%nat) by (intros; cbn; lia).
    pose proof (map_len (be_colour v off) 2 bs (C off)). pose proof (map_len (be_colour v (off + 2)) 2 bs (C _)).
    cbn [List.length]. lia.
  - assert (C : forall a : list byte, (List.length (both (be_colour v off) (be_colour v (off + 2)) a) <= 4)%nat) by (intros; cbn; lia).
    pose proof (map_len _ 4 bs C). cbn [List.length]. lia.
Qed.
Lemma be_shown1_len : forall x s, Forall (fun d : list byte => zlen d <= zlen x) (be_bc1_shown x s).
Proof.
  intros x s. constructor; [|constructor]. pose proof (be_colours_len (decorrelation_mode s) (split_colour_endpoints s) 0 (blocks 8 x)).
  pose proof (blocks_len 8 x ltac:(lia)). unfold zlen. lia.
Qed.
Lemma be_shown2_len : forall x s, Forall (fun d : list byte => zlen d <= zlen x) (be_bc2_shown x s).
Proof.
  intros x s. constructor; [|constructor]. pose proof (be_colours_len (decorrelation_mode s) (split_colour_endpoints s) 8 (blocks 16 x)).
  pose proof (blocks_len 16 x ltac:(lia)). unfold zlen. lia.
Qed.
Lemma be_shown3_len : forall x s, Forall (fun d : list byte => zlen d <= zlen x) (be_bc3_shown x s).
Proof.
  intros x s. pose proof (blocks_len 16 x ltac:(lia)). constructor; [|constructor; [|constructor]].
  - pose proof (alphas_len (split_alpha_endpoints s) (blocks 16 x)). unfold zlen. lia.
  - pose proof (be_colours_len (decorrelation_mode3 s) (split_colour_endpoints3 s) 8 (blocks 16 x)). unfold zlen. lia.
Qed.
Lemma be_lC45_bc1_auto : forall (matches : list byte -> Z) (c : cfg) (v : env) (all : bool) (x out : list byte),
  (forall d, 0 <= matches d) -> cpu_ok c -> zlen x mod 8 = 0 -> zlen x <= zlen out -> zlen x <= usize_max v ->
  exists s y, be_transform_bc1_auto c v (ltu matches) all x out tt = Ok (ROk s, y, tt) /\ be_transform_bc1 c s x out = Ok (ROk tt, y) /\
    candidate all (decorrelation_mode s) /\
    forall s', candidate all (decorrelation_mode s') ->
      ltu_total matches (be_bc1_shown x s) <= ltu_total matches (be_bc1_shown x s').
Proof.
  intros matches c v all x out M K Hm Ho U.
  rewrite (be_bc1_cut matches c v all x out (zlen x) M (zlen_nonneg _ x) (Z.le_refl _)).
  set (v' := Env (usize_max v) (fun _ => true)).
  destruct (AUTO_ltu _ _ _ _ _ _ _ _ (cut_nonneg (zlen x) matches M) (be_bc1_AUTO c v' (ltu (cut (zlen x) matches)) all x out K Hm Ho)) as (s & y & R).
  exists s, y. split; [exact R|].
  destruct (be_lC16_bc1_auto_optimal ltu_error c v' ltu_max (fun d n => ltu_estimate (cut (zlen x) matches) (Some d) n) all x out s y K) as (A1 & A2 & n & z & A3 & A4 & A5).
  { intros d n z E. rewrite ltu_est' in E by (apply cut_nonneg; exact M). injection E as <-. pose proof (cut_bound (zlen x) matches d (zlen_nonneg _ x) M). cbn [usize_max v'].
    split; [unfold ltu_value; lia|lia]. }
  { exact R. }
  split; [exact A2|]. split; [exact A1|]. intros s' C. destruct (A5 s' C) as (z' & A6 & A7).
  rewrite cut_total in A4, A6 by (first [exact M|apply be_shown1_len]). injection A4 as <-. injection A6 as <-. exact A7.
Qed.
Lemma be_lC45_bc2_auto : forall (matches : list byte -> Z) (c : cfg) (v : env) (all : bool) (x out : list byte),
  (forall d, 0 <= matches d) -> cpu_ok c -> zlen x mod 16 = 0 -> zlen x <= zlen out -> zlen x <= usize_max v ->
  exists s y, be_transform_bc2_auto c v (ltu matches) all x out tt = Ok (ROk s, y, tt) /\ be_transform_bc2 c s x out = Ok (ROk tt, y) /\
    candidate all (decorrelation_mode s) /\
    forall s', candidate all (decorrelation_mode s') ->
      ltu_total matches (be_bc2_shown x s) <= ltu_total matches (be_bc2_shown x s').
Proof.
  intros matches c v all x out M K Hm Ho U.
  rewrite (be_bc2_cut matches c v all x out (zlen x) M (zlen_nonneg _ x) (Z.le_refl _)).
  set (v' := Env (usize_max v) (fun _ => true)).
  destruct (AUTO_ltu _ _ _ _ _ _ _ _ (cut_nonneg (zlen x) matches M) (be_bc2_AUTO c v' (ltu (cut (zlen x) matches)) all x out K Hm Ho)) as (s & y & R).
  exists s, y. split; [exact R|].
  destruct (be_lC17_bc2_auto_optimal ltu_error c v' ltu_max (fun d n => ltu_estimate (cut (zlen x) matches) (Some d) n) all x out s y K) as (A1 & A2 & n & z & A3 & A4 & A5).
  { intros d n z E. rewrite ltu_est' in E by (apply cut_nonneg; exact M). injection E as <-. pose proof (cut_bound (zlen x) matches d (zlen_nonneg _ x) M). cbn [usize_max v'].
    split; [unfold ltu_value; lia|lia]. }
  { exact R. }
  split; [exact A2|]. split; [exact A1|]. intros s' C. destruct (A5 s' C) as (z' & A6 & A7).
  rewrite cut_total in A4, A6 by (first [exact M|apply be_shown2_len]). injection A4 as <-. injection A6 as <-. exact A7.
Qed.
Lemma be_lC45_bc3_auto : forall (matches : list byte -> Z) (c : cfg) (v : env) (all : bool) (x out : list byte),
  (forall d, 0 <= matches d) -> cpu_ok c -> zlen x mod 16 = 0 -> zlen x <= zlen out -> 2 * zlen x <= usize_max v ->
  exists s y, be_transform_bc3_auto c v (ltu matches) all x out tt = Ok (ROk s, y, tt) /\ be_transform_bc3 c s x out = Ok (ROk tt, y) /\
    candidate all (decorrelation_mode3 s) /\
    forall s', candidate all (decorrelation_mode3 s') ->
      ltu_total matches (be_bc3_shown x s) <= ltu_total matches (be_bc3_shown x s').
Proof.
  intros matches c v all x out M K Hm Ho U.
  rewrite (be_bc3_cut matches c v all x out (zlen x) M (zlen_nonneg _ x) (Z.le_refl _)).
  set (v' := Env (usize_max v) (fun _ => true)).
  assert (SZ : forall d n z, ltu_estimate (cut (zlen x) matches) (Some d) n = ROk z -> 0 <= z /\ 2 * z <= usize_max v').
  { intros d n z E. rewrite ltu_est' in E by (apply cut_nonneg; exact M). injection E as <-. pose proof (cut_bound (zlen x) matches d (zlen_nonneg _ x) M). cbn [usize_max v'].
    split; [unfold ltu_value; lia|lia]. }
  assert (SZ' : forall st d n z st', estimate_compressed_size (ltu (cut (zlen x) matches)) st d n = (ROk z, st') -> 2 * z <= usize_max v').
  { intros st d n z st' E. cbn [estimate_compressed_size ltu] in E. injection E as E _. apply (SZ d n). exact E. }
  destruct (AUTO_ltu _ _ _ _ _ _ _ _ (cut_nonneg (zlen x) matches M) (be_bc3_AUTO c v' (ltu (cut (zlen x) matches)) all x out K SZ' Hm Ho)) as (s & y & R).
  exists s, y. split; [exact R|].
  destruct (be_lC18_bc3_auto_optimal ltu_error c v' ltu_max (fun d n => ltu_estimate (cut (zlen x) matches) (Some d) n) all x out s y K SZ R) as (A1 & A2 & n & z & A3 & A4 & A5).
  split; [exact A2|]. split; [exact A1|]. intros s' C. destruct (A5 s' C) as (z' & A6 & A7).
  rewrite cut_total in A4, A6 by (first [exact M|apply be_shown3_len]). injection A4 as <-. injection A6 as <-. exact A7.
Qed.
Section Zst.
Context {L : Type} (lib : zstd_lib L) (lv : Z).
Hypothesis K : keeps_promise lib.
Lemma be_zstd_no_err1 : forall c v all m st m' st' e1 p q len, 0 <= len ->
  be_transform_bc1_auto_ptr c v (zstd lib lv) all p q len m st <> Ok (RErr (SizeEstimationError e1), m', st').
Proof.
  intros c v all m st m' st' e1 p q len Hl. unfold be_transform_bc1_auto_ptr. apply search_no_err. intros s.
  destruct (max_ok lib lv (len / 2) s ltac:(lia)) as (z & E & Z0). exists z. split; [exact E|]. intros m0 s0 e0 s1. apply (estimate_no_err lib lv K (len / 2)); [lia|tauto].
Qed.
Lemma be_zstd_no_err2 : forall c v all m st m' st' e1 p q len, 0 <= len ->
  be_transform_bc2_auto_ptr c v (zstd lib lv) all p q len m st <> Ok (RErr (SizeEstimationError e1), m', st').
Proof.
  intros c v all m st m' st' e1 p q len Hl. unfold be_transform_bc2_auto_ptr. apply search_no_err. intros s.
  destruct (max_ok lib lv (len / 4) s ltac:(lia)) as (z & E & Z0). exists z. split; [exact E|]. intros m0 s0 e0 s1.
  destruct (ptr_add m0 q (len / 2)); cbn [bind]; try discriminate. apply (estimate_no_err lib lv K (len / 4)); [lia|tauto].
Qed.
Lemma be_zstd_no_err3 : forall c v all m st m' st' e1 p q len, 0 <= len ->
  be_transform_bc3_auto_ptr c v (zstd lib lv) all p q len m st <> Ok (RErr (SizeEstimationError e1), m', st').
Proof.
  intros c v all m st m' st' e1 p q len Hl. unfold be_transform_bc3_auto_ptr. apply search_no_err. intros s.
  destruct (max_ok lib lv (len / 4) s ltac:(lia)) as (z & E & Z0). exists z. split; [exact E|]. intros m0 s0 e0 s1. unfold estimate_bc3.
  pose proof (fun m st e st' => estimate_no_err lib lv K (len / 4) z q m st e st' (len / 16 * 2) ltac:(lia) ltac:(tauto)) as N1.
  destruct (estimate_at (zstd lib lv) q (len / 16 * 2) z m0 s0) as [[[a|ea] sa]| |] eqn:A; cbn [bind]; try discriminate; [|exfalso; exact (N1 _ _ _ _ A)].
  destruct (ptr_add m0 q (len / 2)) as [p2| |]; cbn [bind]; try discriminate.
  pose proof (fun m st e st' => estimate_no_err lib lv K (len / 4) z p2 m st e st' (len / 16 * 4) ltac:(lia) ltac:(tauto)) as N2.
  destruct (estimate_at (zstd lib lv) p2 (len / 16 * 4) z m0 sa) as [[[b|eb] sb]| |] eqn:B; cbn [bind]; try discriminate; [|exfalso; exact (N2 _ _ _ _ B)].
  destruct (_ <=? _); [discriminate|]. destruct (c_debug c); discriminate.
Qed.
End Zst.
Lemma be_zstd_bc1_auto : forall (L : Type) (lib : zstd_lib L) (lv : Z) (c : cfg) (v : env) (all : bool) (x out : list byte) (st : L),
  keeps_promise lib -> cpu_ok c -> zlen x mod 8 = 0 -> zlen x <= zlen out -> can_allocate lib v (zlen x / 2) ->
  exists s y st', be_transform_bc1_auto c v (zstd lib lv) all x out st = Ok (ROk s, y, st').
Proof.
  intros L lib lv c v all x out st K KC Hm Ho A. pose proof (zlen_nonneg _ x).
  destruct (be_lC19_bc1_estimator_errors _ _ c v (zstd lib lv) all x out st KC Hm Ho) as (r & y & st' & log & E & _ & C).
  destruct r as [s|[n|a b|[|e]]]; [exists s, y, st'; exact E|contradiction|contradiction| |].
  - exfalso. unfold be_transform_bc1_auto in E. apply checked_err in E. destruct E as (m' & E).
    destruct (zalloc lib lv v (zlen x / 2) st ltac:(lia) A) as (z & M & Q). exact (search_alloc _ _ _ _ _ _ _ _ _ _ _ _ _ M Q E).
  - exfalso. unfold be_transform_bc1_auto in E. apply checked_err in E. destruct E as (m' & E). exact (be_zstd_no_err1 lib lv K _ _ _ _ _ _ _ _ _ _ (zlen x) (zlen_nonneg _ x) E).
Qed.
Lemma be_zstd_bc2_auto : forall (L : Type) (lib : zstd_lib L) (lv : Z) (c : cfg) (v : env) (all : bool) (x out : list byte) (st : L),
  keeps_promise lib -> cpu_ok c -> zlen x mod 16 = 0 -> zlen x <= zlen out -> can_allocate lib v (zlen x / 4) ->
  exists s y st', be_transform_bc2_auto c v (zstd lib lv) all x out st = Ok (ROk s, y, st').
Proof.
  intros L lib lv c v all x out st K KC Hm Ho A. pose proof (zlen_nonneg _ x).
  destruct (be_lC19_bc2_estimator_errors _ _ c v (zstd lib lv) all x out st KC Hm Ho) as (r & y & st' & log & E & _ & C).
  destruct r as [s|[n|a b|[|e]]]; [exists s, y, st'; exact E|contradiction|contradiction| |].
  - exfalso. unfold be_transform_bc2_auto in E. apply checked_err in E. destruct E as (m' & E).
    destruct (zalloc lib lv v (zlen x / 4) st ltac:(lia) A) as (z & M & Q). exact (search_alloc _ _ _ _ _ _ _ _ _ _ _ _ _ M Q E).
  - exfalso. unfold be_transform_bc2_auto in E. apply checked_err in E. destruct E as (m' & E). exact (be_zstd_no_err2 lib lv K _ _ _ _ _ _ _ _ _ _ (zlen x) (zlen_nonneg _ x) E).
Qed.
Lemma be_zstd_bc3_auto : forall (L : Type) (lib : zstd_lib L) (lv : Z) (c : cfg) (v : env) (all : bool) (x out : list byte) (st : L),
  keeps_promise lib -> (forall k n d s, 2 * fst (z_compress2 lib k n d s) <= usize_max v \/ z_is_error lib (fst (z_compress2 lib k n d s)) = true) -> 0 <= usize_max v ->
  cpu_ok c -> zlen x mod 16 = 0 -> zlen x <= zlen out -> can_allocate lib v (zlen x / 4) ->
  exists s y st', be_transform_bc3_auto c v (zstd lib lv) all x out st = Ok (ROk s, y, st').
Proof.
  intros L lib lv c v all x out st K B U KC Hm Ho A. pose proof (zlen_nonneg _ x).
  assert (B' : forall st d n z st', estimate_compressed_size (zstd lib lv) st d n = (ROk z, st') -> 2 * z <= usize_max v).
  { intros s d n z s' E. cbn [estimate_compressed_size zstd] in E. unfold zstd_estimate in E. destruct (zlen d =? 0); [injection E as <- _; lia|].
    unfold zstd_compress in E. destruct (z_create_cctx lib s) as [[k|] s1]; [|discriminate].
    match type of E with context [z_compress2 lib ?a ?b ?c ?d] => pose proof (B a b c d) as Q; destruct (z_compress2 lib a b c d) as [r s2] end.
    cbn [fst] in Q. destruct (z_is_error lib r); cbn [negb] in E; [discriminate|]. injection E as <- _. destruct Q as [Q|Q]; [exact Q|discriminate]. }
  destruct (be_lC19_bc3_estimator_errors _ _ c v (zstd lib lv) all x out st KC B' Hm Ho) as (r & y & st' & log & E & _ & C).
  destruct r as [s|[n|a b|[|e]]]; [exists s, y, st'; exact E|contradiction|contradiction| |].
  - exfalso. unfold be_transform_bc3_auto in E. apply checked_err in E. destruct E as (m' & E).
    destruct (zalloc lib lv v (zlen x / 4) st ltac:(lia) A) as (z & M & Q). exact (search_alloc _ _ _ _ _ _ _ _ _ _ _ _ _ M Q E).
  - exfalso. unfold be_transform_bc3_auto in E. apply checked_err in E. destruct E as (m' & E). exact (be_zstd_no_err3 lib lv K _ _ _ _ _ _ _ _ _ _ (zlen x) (zlen_nonneg _ x) E).
Qed.

Section Formats.
Context {St Er : Type}.
Variables (c : cfg) (v : env) (e : estimator St Er) (all : bool) (x out : list byte) (st : St) (P : Z -> list byte -> Z -> Prop).
Hypothesis HP : forall n st d z st', estimate_compressed_size e st d n = (ROk z, st') -> P n d z.

Lemma be_answers_bc1 : forall s y st' log, cpu_ok c -> (forall n d z, P n d z -> z < usize_max v) ->
  be_transform_bc1_auto c v (logging e) all x out (st, []) = Ok (ROk s, y, (st', log)) ->
  exists scratch rounds, fst (max_compressed_size e st (zlen x / 2)) = ROk scratch /\
    log = AskedMax (zlen x / 2) (ROk scratch) :: flat_map (round_calls (be_bc1_shown x) scratch) rounds /\ map fst rounds = tried all /\
    Forall (fun r => Forall2 (P scratch) (be_bc1_shown x (fst r)) (snd r)) rounds /\ first_smallest rounds s.
Proof.
  intros s y st' log K HU H. pose proof H as H0. unfold be_transform_bc1_auto in H0. apply valid_auto in H0. destruct H0 as (Hm & Ho).
  refine (AUTO_answers v e (be_bc1_shown x) _ (tried all) default_settings (zlen x / 2) _ st s y st' log P (be_bc1_AUTO c v (logging e) all x out K Hm Ho) _ HP _ H).
  - apply order1_in. unfold candidate. auto.
  - intros n s0 zs F. inversion F as [|d z ds zs0 Q F0]; subst. inversion F0; subst. cbn [answered_sum fold_right]. specialize (HU _ _ _ Q). lia.
Qed.
Lemma be_answers_bc2 : forall s y st' log, cpu_ok c -> (forall n d z, P n d z -> z < usize_max v) ->
  be_transform_bc2_auto c v (logging e) all x out (st, []) = Ok (ROk s, y, (st', log)) ->
  exists scratch rounds, fst (max_compressed_size e st (zlen x / 4)) = ROk scratch /\
    log = AskedMax (zlen x / 4) (ROk scratch) :: flat_map (round_calls (be_bc2_shown x) scratch) rounds /\ map fst rounds = tried all /\
    Forall (fun r => Forall2 (P scratch) (be_bc2_shown x (fst r)) (snd r)) rounds /\ first_smallest rounds s.
Proof.
  intros s y st' log K HU H. pose proof H as H0. unfold be_transform_bc2_auto in H0. apply valid_auto in H0. destruct H0 as (Hm & Ho).
  refine (AUTO_answers v e (be_bc2_shown x) _ (tried all) default_settings (zlen x / 4) _ st s y st' log P (be_bc2_AUTO c v (logging e) all x out K Hm Ho) _ HP _ H).
  - apply order1_in. unfold candidate. auto.
  - intros n s0 zs F. inversion F as [|d z ds zs0 Q F0]; subst. inversion F0; subst. cbn [answered_sum fold_right]. specialize (HU _ _ _ Q). lia.
Qed.
Lemma be_answers_bc3 : forall s y st' log, cpu_ok c -> (forall n d z, P n d z -> 2 * z < usize_max v) ->
  be_transform_bc3_auto c v (logging e) all x out (st, []) = Ok (ROk s, y, (st', log)) ->
  exists scratch rounds, fst (max_compressed_size e st (zlen x / 4)) = ROk scratch /\
    log = AskedMax (zlen x / 4) (ROk scratch) :: flat_map (round_calls (be_bc3_shown x) scratch) rounds /\ map fst rounds = tried3 all /\
    Forall (fun r => Forall2 (P scratch) (be_bc3_shown x (fst r)) (snd r)) rounds /\ first_smallest rounds s.
Proof.
  intros s y st' log K HU H. pose proof H as H0. unfold be_transform_bc3_auto in H0. apply valid_auto in H0. destruct H0 as (Hm & Ho).
  assert (B : forall st d n z st', estimate_compressed_size (logging e) st d n = (ROk z, st') -> 2 * z <= usize_max v).
  { intros s0 d n z s1 E. cbn [logging estimate_compressed_size] in E. destruct (estimate_compressed_size e (fst s0) d n) as [r s2] eqn:Q. injection E as -> _.
    specialize (HU _ _ _ (HP _ _ _ _ _ Q)). lia. }
  refine (AUTO_answers v e (be_bc3_shown x) _ (tried3 all) default_settings3 (zlen x / 4) _ st s y st' log P (be_bc3_AUTO c v (logging e) all x out K B Hm Ho) _ HP _ H).
  - apply order3_in. unfold candidate. auto.
  - intros n s0 zs F. inversion F as [|d z ds zs0 Q F0]; subst. inversion F0 as [|d1 z1 ds1 zs1 Q1 F1]; subst. inversion F1; subst. cbn [answered_sum fold_right].
    pose proof (HU _ _ _ Q). pose proof (HU _ _ _ Q1). lia.
Qed.
End Formats.

Section Smallest.
Context {L : Type} (lib : zstd_lib L) (v : env) (size : Z -> list byte -> Z) (lv : Z).
Hypothesis K : keeps_promise lib.
Hypothesis C : compresses_to lib v size.

Lemma be_colours_exact : forall k va sp off bs, List.length (lay (be_colour_fields va sp off) (blocks k bs)) = (4 * List.length (blocks k bs))%nat.
Proof.
  intros k va sp off bs. set (l := blocks k bs). clearbody l. unfold lay, be_colour_fields. destruct sp; cbn [map List.concat]; rewrite ?app_length, ?app_nil_r.
  - rewrite !(length_concat_const 2); [rewrite !map_length; cbn [List.length]; lia|intros b H; apply in_map_iff in H; destruct H as (a & <- & _); reflexivity..].
  - rewrite (length_concat_const 4); [rewrite map_length; cbn [List.length]; lia|]. intros b H. apply in_map_iff in H. destruct H as (a & <- & _). reflexivity.
Qed.
Lemma be_bc1_smallest : forall (c : cfg) (all : bool) (x out : list byte) (st : L) s y st', cpu_ok c ->
  be_transform_bc1_auto c v (zstd lib lv) all x out st = Ok (ROk s, y, st') ->
  forall s', candidate all (decorrelation_mode s') -> compressed_sum (size lv) (be_bc1_shown x s) <= compressed_sum (size lv) (be_bc1_shown x s').
Proof.
  intros c all x out st s y st' KC H s' Hs'. pose proof H as H0. unfold be_transform_bc1_auto in H0. apply valid_auto in H0. destruct H0 as (Hm & Ho).
  pose proof (be_bc1_log_same c v (zstd lib lv) all x out st []) as S. rewrite H in S.
  destruct (be_transform_bc1_auto c v (logging (zstd lib lv)) all x out (st, [])) as [[[r y1] [st1 log]]| |] eqn:E; cbn [forget] in S; try discriminate. injection S as -> -> ->.
  destruct (be_answers_bc1 c v (zstd lib lv) all x out st (measured lib v size lv) (answers_measured lib v size lv K C) s y st' log KC ltac:(intros n d z (Q & _); pose proof (proj2 (proj2 C)); lia) E)
    as (scratch & rounds & M & _ & R2 & R3 & R4).
  pose proof (zlen_nonneg _ x). destruct (Z.eq_dec (zlen x) 0) as [Z0|N0].
  - apply empty_len in Z0. subst x. assert (Q : forall s, be_bc1_shown [] s = [[]]) by (intros [[] []]; reflexivity). rewrite !Q. lia.
  - refine (smallest lib v size lv (be_bc1_shown x) scratch rounds s s' (tried all) R2 R3 R4 _ (proj2 (order1_in all s') Hs')).
    intros s0. constructor; [|constructor]. pose proof (be_colours_exact 8 (decorrelation_mode s0) (split_colour_endpoints s0) 0 x) as LN. rewrite blocks_count in LN.
    apply (room lib lv K x 2 scratch st _ M); unfold zlen in *; [|rewrite LN]; lia.
Qed.
Lemma be_bc2_smallest : forall (c : cfg) (all : bool) (x out : list byte) (st : L) s y st', cpu_ok c ->
  be_transform_bc2_auto c v (zstd lib lv) all x out st = Ok (ROk s, y, st') ->
  forall s', candidate all (decorrelation_mode s') -> compressed_sum (size lv) (be_bc2_shown x s) <= compressed_sum (size lv) (be_bc2_shown x s').
Proof.
  intros c all x out st s y st' KC H s' Hs'. pose proof H as H0. unfold be_transform_bc2_auto in H0. apply valid_auto in H0. destruct H0 as (Hm & Ho).
  pose proof (be_bc2_log_same c v (zstd lib lv) all x out st []) as S. rewrite H in S.
  destruct (be_transform_bc2_auto c v (logging (zstd lib lv)) all x out (st, [])) as [[[r y1] [st1 log]]| |] eqn:E; cbn [forget] in S; try discriminate. injection S as -> -> ->.
  destruct (be_answers_bc2 c v (zstd lib lv) all x out st (measured lib v size lv) (answers_measured lib v size lv K C) s y st' log KC ltac:(intros n d z (Q & _); pose proof (proj2 (proj2 C)); lia) E)
    as (scratch & rounds & M & _ & R2 & R3 & R4).
  pose proof (zlen_nonneg _ x). destruct (Z.eq_dec (zlen x) 0) as [Z0|N0].
  - apply empty_len in Z0. subst x. assert (Q : forall s, be_bc2_shown [] s = [[]]) by (intros [[] []]; reflexivity). rewrite !Q. lia.
  - refine (smallest lib v size lv (be_bc2_shown x) scratch rounds s s' (tried all) R2 R3 R4 _ (proj2 (order1_in all s') Hs')).
    intros s0. constructor; [|constructor]. pose proof (be_colours_exact 16 (decorrelation_mode s0) (split_colour_endpoints s0) 8 x) as LN. rewrite blocks_count in LN.
    apply (room lib lv K x 4 scratch st _ M); unfold zlen in *; [|rewrite LN]; lia.
Qed.
Lemma be_bc3_smallest : forall (c : cfg) (all : bool) (x out : list byte) (st : L) s y st', cpu_ok c ->
  be_transform_bc3_auto c v (zstd lib lv) all x out st = Ok (ROk s, y, st') ->
  forall s', candidate all (decorrelation_mode3 s') -> compressed_sum (size lv) (be_bc3_shown x s) <= compressed_sum (size lv) (be_bc3_shown x s').
Proof.
  intros c all x out st s y st' KC H s' Hs'. pose proof H as H0. unfold be_transform_bc3_auto in H0. apply valid_auto in H0. destruct H0 as (Hm & Ho).
  pose proof (be_bc3_log_same c v (zstd lib lv) all x out st []) as S. rewrite H in S.
  destruct (be_transform_bc3_auto c v (logging (zstd lib lv)) all x out (st, [])) as [[[r y1] [st1 log]]| |] eqn:E; cbn [forget] in S; try discriminate. injection S as -> -> ->.
  destruct (be_answers_bc3 c v (zstd lib lv) all x out st (measured lib v size lv) (answers_measured lib v size lv K C) s y st' log KC ltac:(intros n d z (Q & _); exact Q) E)
    as (scratch & rounds & M & _ & R2 & R3 & R4).
  pose proof (zlen_nonneg _ x). destruct (Z.eq_dec (zlen x) 0) as [Z0|N0].
  - apply empty_len in Z0. subst x. assert (Q : forall s, be_bc3_shown [] s = [[]; []]) by (intros [[] [] []]; reflexivity). rewrite !Q. lia.
  - refine (smallest lib v size lv (be_bc3_shown x) scratch rounds s s' (tried3 all) R2 R3 R4 _ (proj2 (order3_in all s') Hs')).
    intros s0. constructor; [|constructor; [|constructor]].
    + pose proof (alphas_exact (split_alpha_endpoints s0) x) as LN. rewrite blocks_count in LN. apply (room lib lv K x 4 scratch st _ M); unfold zlen in *; [|rewrite LN]; lia.
    + pose proof (be_colours_exact 16 (decorrelation_mode3 s0) (split_colour_endpoints3 s0) 8 x) as LN. rewrite blocks_count in LN. apply (room lib lv K x 4 scratch st _ M); unfold zlen in *; [|rewrite LN]; lia.
Qed.
End Smallest.
