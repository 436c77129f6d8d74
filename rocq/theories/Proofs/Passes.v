(** Several normalising passes in place do what the last one does (C96). *)
From Verif Require Import Base.Bytes Base.Res Model.Color565 Model.Decode Model.Normalize Spec.Pixels Spec.Normalize Spec.Passes
  Proofs.DecodeFacts Proofs.NormLoop Proofs.NormPixels Proofs.NormalizeFacts Proofs.NormalizeFacts2 Proofs.NormSplit Proofs.NormDerived Proofs.NormMachines.
From Coq Require Import ZifyBool ZifyNat.
Open Scope Z_scope.

Lemma passes_snoc : forall M (call : bool -> M -> list byte -> res (list byte)) l d k m,
  passes call (l ++ [(d, k)]) m = (do m1 <- passes call l m ;; call d k m1).
Proof.
  intros M call l. induction l as [|[d1 k1] l IH]; intros d k m; cbn [passes app bind].
  - destruct (call d k m); reflexivity.
  - destruct (call d1 k1 m); cbn [bind]; [apply IH|reflexivity|reflexivity].
Qed.

Section Generic.
Context {M : Type}.
Variables (none : M) (later : M -> M -> M) (final : list M -> M) (Rel : M -> list byte -> list byte -> Prop) (ok : list byte -> Prop)
  (call : bool -> M -> list byte -> res (list byte)).
Hypotheses (F0 : final [] = none) (FS : forall l k, final (l ++ [k]) = later (final l) k)
  (FUN : forall k m m1 m2, ok m -> Rel k m m1 -> Rel k m m2 -> m1 = m2)
  (COMP : forall a b m m1 m2, ok m -> Rel a m m1 -> Rel b m1 m2 -> Rel (later a b) m m2)
  (REFL : forall m, ok m -> Rel none m m)
  (KEEP : forall k m m', ok m -> Rel k m m' -> ok m')
  (CALL : forall d k m, ok m -> exists m', call d k m = Ok m' /\ Rel k m m').
Lemma passes_rel : forall l m, ok m -> exists m', passes call l m = Ok m' /\ Rel (final (map snd l)) m m'.
Proof.
  intros l m OK. induction l as [|[d k] l IH] using rev_ind.
  - exists m. split; [reflexivity|]. cbn [map]. rewrite F0. apply REFL. exact OK.
  - destruct IH as (m1 & E & R). destruct (CALL d k m1 (KEEP _ _ _ OK R)) as (m2 & E2 & R2). exists m2. split.
    + rewrite passes_snoc, E. exact E2.
    + rewrite map_app. cbn [map snd]. rewrite FS. exact (COMP _ _ _ _ _ OK R R2).
Qed.
Lemma passes_last : forall d l m, ok m -> exists m', passes call l m = Ok m' /\ call d (final (map snd l)) m = Ok m' /\ Rel (final (map snd l)) m m'.
Proof.
  intros d l m OK. destruct (passes_rel l m OK) as (m1 & E & R). destruct (CALL d (final (map snd l)) m OK) as (m2 & E2 & R2).
  pose proof (FUN _ _ _ _ OK R R2) as ->. exists m2. split; [exact E|]. split; [exact E2|exact R2].
Qed.
End Generic.

(** ** Modes *)
Definition later_c (a b : color_norm) := match b with CNone => a | _ => b end.
Definition later_a (a b : alpha_norm) := match b with ANone => a | _ => b end.
Lemma last_c_snoc : forall l k, last_colour_mode (l ++ [k]) = later_c (last_colour_mode l) k.
Proof. intros l k. unfold last_colour_mode. rewrite filter_app. destruct k; cbn [filter later_c]; [rewrite app_nil_r; reflexivity|apply last_last|apply last_last]. Qed.
Lemma last_a_snoc : forall l k, last_alpha_mode (l ++ [k]) = later_a (last_alpha_mode l) k.
Proof. intros l k. unfold last_alpha_mode. rewrite filter_app. destruct k; cbn [filter later_a]; [rewrite app_nil_r; reflexivity|apply last_last|apply last_last|apply last_last]. Qed.

(** ** Blocks *)
Lemma bc1_refl : forall b, bc1_normal CNone b b.
Proof. intros b. left. split; reflexivity. Qed.
Lemma bc1_comp : forall a k b b1 b2, bc1_normal a b b1 -> bc1_normal k b1 b2 -> bc1_normal (later_c a k) b b2.
Proof.
  intros a k b b1 b2 R1 R2. pose proof (bc1_normal_picture _ _ _ R1) as P.
  destruct R2 as [[-> ->]|[N R2]]; [exact R1|]. replace (later_c a k) with k by (destruct k; congruence || reflexivity).
  right. split; [exact N|]. destruct R2 as [[T ->]|[(v & S & ->)|(T & S & ->)]].
  - left. split; [|reflexivity]. exact (transparent_picture _ _ P T).
  - right. left. exists v. split; [|reflexivity]. exact (solid_picture _ _ _ P S).
  - right. right. assert (T' : ~ bc1_transparent b) by (intros Q; apply T; exact (transparent_picture _ _ (eq_sym P) Q)).
    assert (S' : ~ exists v, bc1_solid b v) by (intros [v Q]; apply S; exists v; exact (solid_picture _ _ _ (eq_sym P) Q)).
    split; [exact T'|]. split; [exact S'|]. destruct R1 as [[_ ->]|[_ [[Q _]|[(v & Q & _)|(_ & _ & ->)]]]]; [reflexivity|contradiction|destruct S'; exists v; exact Q|reflexivity].
Qed.
(** the colour part, seen through blocks with the same picture *)
Lemma colour_comp : forall px a k b b1 c1 c2, picture px b1 = picture px b -> slice b1 8 8 = c1 ->
  colour_normal px a b c1 -> colour_normal px k b1 c2 -> colour_normal px (later_c a k) b c2.
Proof.
  intros px a k b b1 c1 c2 P SL R1 R2.
  destruct R2 as [[-> ->]|[N R2]]; [rewrite SL; exact R1|]. replace (later_c a k) with k by (destruct k; congruence || reflexivity).
  right. split; [exact N|]. destruct R2 as [(v & S & ->)|(S & ->)].
  - left. exists v. split; [exact (one_colour_picture _ _ _ _ P S)|reflexivity].
  - right. assert (S' : ~ exists v, one_colour px b v) by (intros [v Q]; apply S; exists v; exact (one_colour_picture _ _ _ _ (eq_sym P) Q)).
    split; [exact S'|]. rewrite SL. destruct R1 as [[_ ->]|[_ [(v & Q & _)|(_ & ->)]]]; [reflexivity|destruct S'; exists v; exact Q|reflexivity].
Qed.
Lemma alpha_comp : forall a k b b1 c1 c2, picture bc3_pixel b1 = picture bc3_pixel b -> slice b1 0 8 = c1 ->
  alpha_normal a b c1 -> alpha_normal k b1 c2 -> alpha_normal (later_a a k) b c2.
Proof.
  intros a k b b1 c1 c2 P SL R1 R2.
  destruct R2 as [[-> ->]|[N R2]]; [rewrite SL; exact R1|]. replace (later_a a k) with k by (destruct k; congruence || reflexivity).
  right. split; [exact N|]. destruct R2 as [(v & S & ->)|(S & ->)].
  - left. exists v. split; [exact (one_alpha_picture _ _ _ P S)|reflexivity].
  - right. assert (S' : ~ exists v, one_alpha b v) by (intros [v Q]; apply S; exists v; exact (one_alpha_picture _ _ _ (eq_sym P) Q)).
    split; [exact S'|]. rewrite SL. destruct R1 as [[_ ->]|[_ [(v & Q & _)|(_ & ->)]]]; [reflexivity|destruct S'; exists v; exact Q|reflexivity].
Qed.
Lemma bc2_refl : forall b, zlen b = 16 -> bc2_normal CNone b b.
Proof. intros b L. exists (slice b 8 8). split; [left; split; reflexivity|]. exact (halves b L). Qed.
Lemma bc2_comp : forall a k b b1 b2, zlen b = 16 -> bc2_normal a b b1 -> bc2_normal k b1 b2 -> bc2_normal (later_c a k) b b2.
Proof.
  intros a k b b1 b2 L R1 R2. pose proof (bc2_normal_picture _ _ _ L R1) as P. destruct R1 as (c1 & R1 & ->), R2 as (c2 & R2 & ->).
  assert (L8 : zlen (slice b 0 8) = 8) by (apply zlen_slice; lia). pose proof (colour_normal_len _ _ _ _ L R1) as LC.
  exists c2. split; [|rewrite slice_app1 by exact L8; reflexivity].
  apply (colour_comp bc2_pixel a k b _ c1 c2 P); [apply slice_app2'; assumption|exact R1|exact R2].
Qed.
Lemma bc3_refl : forall b, zlen b = 16 -> bc3_normal ANone CNone b b.
Proof. intros b L. exists (slice b 0 8), (slice b 8 8). split; [left; split; reflexivity|]. split; [left; split; reflexivity|]. exact (halves b L). Qed.
Lemma bc3_comp : forall a1 k1 a2 k2 b b1 b2, zlen b = 16 -> bc3_normal a1 k1 b b1 -> bc3_normal a2 k2 b1 b2 -> bc3_normal (later_a a1 a2) (later_c k1 k2) b b2.
Proof.
  intros a1 k1 a2 k2 b b1 b2 L R1 R2. pose proof (bc3_normal_picture _ _ _ _ L R1) as P. destruct R1 as (x1 & c1 & A1 & C1 & ->), R2 as (x2 & c2 & A2 & C2 & ->).
  pose proof (alpha_normal_len _ _ _ L A1) as LA. pose proof (colour_normal_len _ _ _ _ L C1) as LC.
  exists x2, c2. split; [|split; [|reflexivity]].
  - apply (alpha_comp a1 a2 b _ x1 x2 P); [apply slice_app1; exact LA|exact A1|exact A2].
  - apply (colour_comp bc3_pixel k1 k2 b _ c1 c2 P); [apply slice_app2'; assumption|exact C1|exact C2].
Qed.

(** ** Textures *)
Lemma blockwise_comp : forall size (R S T : list byte -> list byte -> Prop) x y z, 0 < size ->
  (forall b b1 b2, zlen b = size -> R b b1 -> S b1 b2 -> T b b2) -> blockwise size R x y -> blockwise size S y z -> blockwise size T x z.
Proof.
  intros size R S T x y z P H [Y1 Y2] [Z1 Z2]. split; [lia|]. intros k K1 K2.
  apply (H _ (slice y (size * k) size)); [apply zlen_slice; nia|apply Y2; assumption|apply Z2; [assumption|lia]].
Qed.
Lemma blockwise_self : forall size (R : list byte -> list byte -> Prop) x, 0 < size -> (forall b, zlen b = size -> R b b) -> blockwise size R x x.
Proof. intros size R x P H. split; [reflexivity|]. intros k K1 K2. apply H. apply zlen_slice; nia. Qed.
Lemma only_comp : forall areas m m1 m2, only_changes areas m m1 -> only_changes areas m1 m2 -> only_changes areas m m2.
Proof. intros areas m m1 m2 [L1 C1] [L2 C2]. split; [lia|]. intros i I N. rewrite C2 by (lia || exact N). apply C1; assumption. Qed.
Lemma only_self : forall areas m, only_changes areas m m.
Proof. intros areas m. split; [reflexivity|]. intros; reflexivity. Qed.

Section Whole.
Context {M : Type}.
Variables (size p len : Z) (none : M) (later : M -> M -> M) (final : list M -> M) (R : M -> list byte -> list byte -> Prop) (call : bool -> M -> list byte -> res (list byte)).
Hypotheses (S0 : 0 < size) (F0 : final [] = none) (FS : forall l k, final (l ++ [k]) = later (final l) k) (MD : len mod size = 0)
  (RF : forall k b b1 b2, zlen b = size -> R k b b1 -> R k b b2 -> b1 = b2)
  (RC : forall a k b b1 b2, zlen b = size -> R a b b1 -> R k b1 b2 -> R (later a k) b b2)
  (RR : forall b, zlen b = size -> R none b b)
  (CALL : forall d k m, within m p len -> exists m', call d k m = Ok m' /\ only_changes [(p, len)] m m' /\ blockwise size (R k) (slice m p len) (slice m' p len)).
Lemma whole_passes : forall d l m, within m p len ->
  exists m', passes call l m = Ok m' /\ call d (final (map snd l)) m = Ok m' /\ only_changes [(p, len)] m m' /\ blockwise size (R (final (map snd l))) (slice m p len) (slice m' p len).
Proof.
  intros d l m W.
  apply (passes_last none later final (fun k m m' => only_changes [(p, len)] m m' /\ blockwise size (R k) (slice m p len) (slice m' p len)) (fun m => within m p len) call F0 FS).
  - intros k m0 m1 m2 W0 [O1 B1] [O2 B2]. apply (same_area m0 m1 m2 p len W0 O1 O2).
    assert (L0 : zlen (slice m0 p len) = len) by (destruct W0 as (? & ? & ?); apply zlen_slice; lia).
    apply (blockwise_functional size (R k) (slice m0 p len) _ _ S0); [rewrite L0; exact MD|exact (RF k)|exact B1|exact B2].
  - intros a k m0 m1 m2 W0 [O1 B1] [O2 B2]. split; [exact (only_comp _ _ _ _ O1 O2)|]. exact (blockwise_comp size _ _ _ _ _ _ S0 (RC a k) B1 B2).
  - intros m0 W0. split; [apply only_self|]. apply blockwise_self; [exact S0|exact RR].
  - intros k m0 m1 (W1 & W2 & W3) [[O1 _] _]. split; [lia|]. split; lia.
  - exact CALL.
  - exact W.
Qed.
End Whole.

Lemma bc1_passes : forall debug m p len calls, within m p len -> len mod 8 = 0 ->
  exists m', passes (fun d mode => bc1_normalize_blocks d p p len mode) calls m = Ok m' /\
    bc1_normalize_blocks debug p p len (last_colour_mode (map snd calls)) m = Ok m' /\ only_changes [(p, len)] m m' /\
    blockwise 8 (fun b b' => picture bc1_pixel b' = picture bc1_pixel b) (slice m p len) (slice m' p len).
Proof.
  intros debug m p len calls W MD.
  destruct (whole_passes 8 p len CNone later_c last_colour_mode bc1_normal (fun d mode => bc1_normalize_blocks d p p len mode) ltac:(lia) eq_refl last_c_snoc MD) with (d := debug) (l := calls) (m := m)
    as (m' & E1 & E2 & O & B).
  - intros k b b1 b2 _. apply bc1_functional.
  - intros a k b b1 b2 _. apply bc1_comp.
  - intros b _. apply bc1_refl.
  - intros d k m0 W0. destruct (lC37 d m0 p p len k W0 W0 MD (or_introl eq_refl)) as (m' & E & O & _ & B). exists m'. split; [exact E|]. split; [exact O|exact B].
  - exact W.
  - exists m'. split; [exact E1|]. split; [exact E2|]. split; [exact O|]. revert B. apply blockwise_picture; [lia|]. intros b b' _. apply bc1_normal_picture.
Qed.
Lemma bc2_passes : forall debug m p len calls, within m p len -> len mod 16 = 0 ->
  exists m', passes (fun d mode => bc2_normalize_blocks d p p len mode) calls m = Ok m' /\
    bc2_normalize_blocks debug p p len (last_colour_mode (map snd calls)) m = Ok m' /\ only_changes [(p, len)] m m' /\
    blockwise 16 (fun b b' => picture bc2_pixel b' = picture bc2_pixel b) (slice m p len) (slice m' p len).
Proof.
  intros debug m p len calls W MD.
  destruct (whole_passes 16 p len CNone later_c last_colour_mode bc2_normal (fun d mode => bc2_normalize_blocks d p p len mode) ltac:(lia) eq_refl last_c_snoc MD) with (d := debug) (l := calls) (m := m)
    as (m' & E1 & E2 & O & B).
  - intros k b b1 b2 _. apply bc2_functional.
  - exact bc2_comp.
  - exact bc2_refl.
  - intros d k m0 W0. destruct (proj1 (lC38 d m0 p p len W0 W0 MD (or_introl eq_refl)) k) as (m' & E & O & _ & B). exists m'. split; [exact E|]. split; [exact O|exact B].
  - exact W.
  - exists m'. split; [exact E1|]. split; [exact E2|]. split; [exact O|]. revert B. apply blockwise_picture; [lia|]. intros b b' L. apply bc2_normal_picture. exact L.
Qed.
Definition last_both (l : list (alpha_norm * color_norm)) := (last_alpha_mode (map fst l), last_colour_mode (map snd l)).
Definition later_both (a b : alpha_norm * color_norm) := (later_a (fst a) (fst b), later_c (snd a) (snd b)).
Lemma last_both_snoc : forall l k, last_both (l ++ [k]) = later_both (last_both l) k.
Proof. intros l [a k]. unfold last_both, later_both. rewrite !map_app. cbn [map fst snd]. rewrite last_a_snoc, last_c_snoc. reflexivity. Qed.
Lemma bc3_passes : forall debug m p len (calls : list (bool * (alpha_norm * color_norm))), within m p len -> len mod 16 = 0 ->
  exists m', passes (fun d mode => bc3_normalize_blocks d p p len (fst mode) (snd mode)) calls m = Ok m' /\
    bc3_normalize_blocks debug p p len (last_alpha_mode (map (fun c => fst (snd c)) calls)) (last_colour_mode (map (fun c => snd (snd c)) calls)) m = Ok m' /\ only_changes [(p, len)] m m' /\
    blockwise 16 (fun b b' => picture bc3_pixel b' = picture bc3_pixel b) (slice m p len) (slice m' p len).
Proof.
  intros debug m p len calls W MD.
  destruct (whole_passes 16 p len (ANone, CNone) later_both last_both (fun k => bc3_normal (fst k) (snd k)) (fun d mode => bc3_normalize_blocks d p p len (fst mode) (snd mode))
    ltac:(lia) eq_refl last_both_snoc MD) with (d := debug) (l := calls) (m := m) as (m' & E1 & E2 & O & B).
  - intros k b b1 b2 _. apply bc3_functional.
  - intros [a1 k1] [a2 k2]. exact (bc3_comp a1 k1 a2 k2).
  - exact bc3_refl.
  - intros d [a k] m0 W0. destruct (proj2 (lC38 d m0 p p len W0 W0 MD (or_introl eq_refl)) a k) as (m' & E & O & _ & B). exists m'. split; [exact E|]. split; [exact O|exact B].
  - exact W.
  - unfold last_both in E2. cbn [fst snd] in E2. rewrite !map_map in E2.
    exists m'. split; [exact E1|]. split; [exact E2|]. split; [exact O|]. revert B. apply blockwise_picture; [lia|]. intros b b' L. apply bc3_normal_picture. exact L.
Qed.

(** ** Blocks stored in parts *)
Lemma gather_pieces : forall m1 m2 k parts, 0 <= k -> (forall p w, In (p, w) parts -> 0 < w /\ 0 <= p /\ p + w * (k + 1) <= zlen m1 /\ p + w * (k + 1) <= zlen m2) ->
  gather m1 parts k = gather m2 parts k -> forall p w, In (p, w) parts -> slice m1 (p + w * k) w = slice m2 (p + w * k) w.
Proof.
  intros m1 m2 k parts K. induction parts as [|[q u] parts IH]; intros W E p w I; [destruct I|].
  unfold gather in E. cbn [flat_map] in E. destruct (W q u (or_introl eq_refl)) as (U & Q & B1 & B2).
  assert (L1 : zlen (slice m1 (q + u * k) u) = u) by (apply zlen_slice; nia). assert (L2 : zlen (slice m2 (q + u * k) u) = u) by (apply zlen_slice; nia).
  assert (H : slice m1 (q + u * k) u = slice m2 (q + u * k) u /\ gather m1 parts k = gather m2 parts k).
  { pose proof (f_equal (firstn (Z.to_nat u)) E) as A. pose proof (f_equal (skipn (Z.to_nat u)) E) as B. unfold zlen in L1, L2.
    rewrite !firstn_app, !firstn_all2 in A by lia. rewrite !skipn_app, !skipn_all2 in B by lia.
    replace (Z.to_nat u - List.length (slice m1 (q + u * k) u))%nat with 0%nat in A, B by lia. replace (Z.to_nat u - List.length (slice m2 (q + u * k) u))%nat with 0%nat in A, B by lia.
    cbn [firstn skipn app] in A, B. rewrite !app_nil_r in A. rewrite firstn_all2 in A by lia. rewrite (skipn_all2 (slice m2 (q + u * k) u)) in B by lia. split; [exact A|exact B]. }
  destruct H as [H1 H2]. destruct I as [I|I]; [injection I as <- <-; exact H1|]. apply IH; [|exact H2|exact I]. intros p' w' I'. apply W. right. exact I'.
Qed.
Lemma parts_same : forall areas parts n m m1 m2, parts_ok m parts n -> (forall p l, In (p, l) areas -> exists w, In (p, w) parts /\ l = w * n) ->
  only_changes areas m m1 -> only_changes areas m m2 -> (forall k, 0 <= k < n -> gather m1 parts k = gather m2 parts k) -> m1 = m2.
Proof.
  intros areas parts n m m1 m2 [W _] A [L1 C1] [L2 C2] G. apply znth_ext; [lia|]. intros i Hi.
  destruct (existsb (fun '(p, l) => (p <=? i) && (i <? p + l)) areas) eqn:X.
  - apply existsb_exists in X. destruct X as [[p l] [IN X]]. destruct (A p l IN) as (w & IP & ->). destruct (W p w IP) as [P0 (W1 & W2 & W3)].
    set (k := (i - p) / w). pose proof (Z.div_mod (i - p) w ltac:(lia)) as DM. pose proof (Z.mod_pos_bound (i - p) w P0) as MB. fold k in DM.
    assert (K : 0 <= k < n) by nia.
    assert (S : slice m1 (p + w * k) w = slice m2 (p + w * k) w).
    { apply (gather_pieces m1 m2 k parts); [lia| |apply G; exact K|exact IP].
      intros q u IQ. destruct (W q u IQ) as [Q0 (Q1 & Q2 & Q3)]. split; [lia|]. split; [lia|]. split; nia. }
    pose proof (f_equal (fun s => znth s ((i - p) mod w)) S) as T. cbv beta in T. rewrite !znth_slice in T by nia.
    replace (p + w * k + (i - p) mod w) with i in T by lia. exact T.
  - assert (NI : forall p l, In (p, l) areas -> ~ (p <= i < p + l)).
    { intros p l IN B. assert (Y : existsb (fun '(p, l) => (p <=? i) && (i <? p + l)) areas = true) by (apply existsb_exists; exists (p, l); split; [exact IN|lia]). congruence. }
    rewrite C1, C2 by (lia || exact NI). reflexivity.
Qed.

Section Parts.
Context {M : Type}.
Variables (size : Z) (parts areas : list (Z * Z)) (n : Z) (none : M) (later : M -> M -> M) (final : list M -> M) (R : M -> list byte -> list byte -> Prop)
  (call : bool -> M -> list byte -> res (list byte)).
Hypotheses (F0 : final [] = none) (FS : forall l k, final (l ++ [k]) = later (final l) k)
  (SZ : fold_right (fun p s => snd p + s) 0 parts = size)
  (AR : forall p l, In (p, l) areas -> exists w, In (p, w) parts /\ l = w * n)
  (RF : forall k b b1 b2, zlen b = size -> R k b b1 -> R k b b2 -> b1 = b2)
  (RC : forall a k b b1 b2, zlen b = size -> R a b b1 -> R k b1 b2 -> R (later a k) b b2)
  (RR : forall b, zlen b = size -> R none b b)
  (CALL : forall d k m, parts_ok m parts n -> exists m', call d k m = Ok m' /\ only_changes areas m m' /\ forall i, 0 <= i < n -> R k (gather m parts i) (gather m' parts i)).
Lemma parts_passes : forall d l m, parts_ok m parts n ->
  exists m', passes call l m = Ok m' /\ call d (final (map snd l)) m = Ok m' /\ only_changes areas m m' /\
    forall i, 0 <= i < n -> R (final (map snd l)) (gather m parts i) (gather m' parts i).
Proof.
  intros d l m W.
  assert (G : forall m i, parts_ok m parts n -> 0 <= i < n -> zlen (gather m parts i) = size) by (intros m0 i P I; rewrite (gather_len16 m0 parts n i P I); exact SZ).
  apply (passes_last none later final (fun k m m' => only_changes areas m m' /\ forall i, 0 <= i < n -> R k (gather m parts i) (gather m' parts i)) (fun m => parts_ok m parts n) call F0 FS).
  - intros k m0 m1 m2 W0 [O1 B1] [O2 B2]. apply (parts_same areas parts n m0 m1 m2 W0 AR O1 O2). intros i I.
    apply (RF k (gather m0 parts i)); [apply G; assumption|apply B1; exact I|apply B2; exact I].
  - intros a k m0 m1 m2 W0 [O1 B1] [O2 B2]. split; [exact (only_comp _ _ _ _ O1 O2)|]. intros i I.
    apply (RC a k _ (gather m1 parts i)); [apply G; assumption|apply B1; exact I|apply B2; exact I].
  - intros m0 W0. split; [apply only_self|]. intros i I. apply RR. apply G; assumption.
  - intros k m0 m1 [W1 W2] [[O1 _] _]. split; [|exact W2]. intros p w I. destruct (W1 p w I) as [P0 (Q1 & Q2 & Q3)]. split; [exact P0|]. split; [exact Q1|]. split; [exact Q2|]. rewrite O1. exact Q3.
  - exact CALL.
  - exact W.
Qed.
End Parts.

Lemma bc1_split_passes : forall m colors indices n calls (parts := [(colors, 4); (indices, 4)]), parts_ok m parts (Z.of_nat n) ->
  exists m', passes (fun _ mode => bc1_normalize_split_blocks_in_place colors indices n mode) calls m = Ok m' /\
    bc1_normalize_split_blocks_in_place colors indices n (last_colour_mode (map snd calls)) m = Ok m' /\
    forall k, 0 <= k < Z.of_nat n -> picture bc1_pixel (gather m' parts k) = picture bc1_pixel (gather m parts k).
Proof.
  intros m colors indices n calls parts W.
  destruct (parts_passes 8 parts [(colors, 4 * Z.of_nat n); (indices, 4 * Z.of_nat n)] (Z.of_nat n) CNone later_c last_colour_mode bc1_normal
    (fun _ mode => bc1_normalize_split_blocks_in_place colors indices n mode) eq_refl last_c_snoc eq_refl) with (d := true) (l := calls) (m := m) as (m' & E1 & E2 & _ & B).
  - intros p l [I|[I|[]]]; injection I as <- <-; exists 4; (split; [|reflexivity]); [left|right; left]; reflexivity.
  - intros k b b1 b2 _. apply bc1_functional.
  - intros a k b b1 b2 _. apply bc1_comp.
  - intros b _. apply bc1_refl.
  - intros d k m0 W0. destruct (lC37_split_picture m0 colors indices n k W0) as (m' & E & O & B). exists m'. split; [exact E|]. split; [exact O|]. intros i I. apply B. exact I.
  - exact W.
  - exists m'. split; [exact E1|]. split; [exact E2|]. intros k K. apply (bc1_normal_picture (last_colour_mode (map snd calls))). apply B. exact K.
Qed.
Lemma bc2_split_passes : forall m alpha colors indices n calls (parts := [(alpha, 8); (colors, 4); (indices, 4)]), parts_ok m parts (Z.of_nat n) ->
  exists m', passes (fun _ mode => bc2_normalize_split_blocks_in_place alpha colors indices n mode) calls m = Ok m' /\
    bc2_normalize_split_blocks_in_place alpha colors indices n (last_colour_mode (map snd calls)) m = Ok m' /\
    forall k, 0 <= k < Z.of_nat n -> picture bc2_pixel (gather m' parts k) = picture bc2_pixel (gather m parts k).
Proof.
  intros m alpha colors indices n calls parts W.
  destruct (parts_passes 16 parts [(colors, 4 * Z.of_nat n); (indices, 4 * Z.of_nat n)] (Z.of_nat n) CNone later_c last_colour_mode bc2_normal
    (fun _ mode => bc2_normalize_split_blocks_in_place alpha colors indices n mode) eq_refl last_c_snoc eq_refl) with (d := true) (l := calls) (m := m) as (m' & E1 & E2 & _ & B).
  - intros p l [I|[I|[]]]; injection I as <- <-; exists 4; (split; [|reflexivity]); [right; left|right; right; left]; reflexivity.
  - intros k b b1 b2 _. apply bc2_functional.
  - exact bc2_comp.
  - exact bc2_refl.
  - intros d k m0 W0. destruct (lC38_split_picture_bc2 m0 alpha colors indices n k W0) as (m' & E & O & B). exists m'. split; [exact E|]. split; [exact O|]. intros i I. apply B. exact I.
  - exact W.
  - exists m'. split; [exact E1|]. split; [exact E2|]. intros k K. apply (bc2_normal_picture (last_colour_mode (map snd calls))); [|apply B; exact K].
    rewrite (gather_len16 m parts _ k W K). reflexivity.
Qed.
Lemma bc3_split_passes : forall m ae ai ce ci n (calls : list (bool * (alpha_norm * color_norm))) (parts := [(ae, 2); (ai, 6); (ce, 4); (ci, 4)]), parts_ok m parts (Z.of_nat n) ->
  exists m', passes (fun _ mode => bc3_normalize_split_blocks_in_place ae ai ce ci n (fst mode) (snd mode)) calls m = Ok m' /\
    bc3_normalize_split_blocks_in_place ae ai ce ci n (last_alpha_mode (map (fun c => fst (snd c)) calls)) (last_colour_mode (map (fun c => snd (snd c)) calls)) m = Ok m' /\
    forall k, 0 <= k < Z.of_nat n -> picture bc3_pixel (gather m' parts k) = picture bc3_pixel (gather m parts k).
Proof.
  intros m ae ai ce ci n calls parts W.
  destruct (parts_passes 16 parts [(ae, 2 * Z.of_nat n); (ai, 6 * Z.of_nat n); (ce, 4 * Z.of_nat n); (ci, 4 * Z.of_nat n)] (Z.of_nat n) (ANone, CNone) later_both last_both
    (fun k => bc3_normal (fst k) (snd k)) (fun _ mode => bc3_normalize_split_blocks_in_place ae ai ce ci n (fst mode) (snd mode)) eq_refl last_both_snoc eq_refl)
    with (d := true) (l := calls) (m := m) as (m' & E1 & E2 & _ & B).
  - intros p l [I|[I|[I|[I|[]]]]]; injection I as <- <-; [exists 2|exists 6|exists 4|exists 4]; (split; [|reflexivity]);
      [left|right; left|right; right; left|right; right; right; left]; reflexivity.
  - intros k b b1 b2 _. apply bc3_functional.
  - intros [a1 k1] [a2 k2]. exact (bc3_comp a1 k1 a2 k2).
  - exact bc3_refl.
  - intros d [a k] m0 W0. destruct (lC38_split_picture_bc3 m0 ae ai ce ci n a k W0) as (m' & E & O & B). exists m'. split; [exact E|]. split; [exact O|]. intros i I. apply B. exact I.
  - exact W.
  - unfold last_both in E2. cbn [fst snd] in E2. rewrite !map_map in E2.
    exists m'. split; [exact E1|]. split; [exact E2|]. intros k K. refine (bc3_normal_picture _ _ _ _ _ (B k K)).
    rewrite (gather_len16 m parts _ k W K). reflexivity.
Qed.
