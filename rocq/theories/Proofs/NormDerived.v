(** Consequences: normal forms are functions of the block, keep the picture, and do not depend on how a block wrote its picture. *)
From Verif Require Import Base.Bytes Base.Res Model.Color565 Model.Decode Model.Normalize Spec.Pixels Spec.Normalize
  Proofs.DecodeFacts Proofs.NormLoop Proofs.NormPixels Proofs.NormalizeFacts Proofs.NormalizeFacts2 Proofs.NormSplit.
From Coq Require Import ZifyBool ZifyNat.

Lemma solid_unique : forall b v w, bc1_solid b v -> bc1_solid b w -> v = w.
Proof.
  intros b v w [V1 V2] [W1 W2]. specialize (V2 0%nat ltac:(lia)). specialize (W2 0%nat ltac:(lia)).
  assert (E : opaque (rgb v) = opaque (rgb w)) by congruence.
  rewrite <- (to_565_rgb v V1 (opaque (rgb v))) by (destruct (rgb v) as [[? ?] ?]; reflexivity).
  rewrite E. apply to_565_rgb; [exact W1|]. destruct (rgb w) as [[? ?] ?]. reflexivity.
Qed.
Lemma one_colour_unique : forall px b v w, one_colour px b v -> one_colour px b w -> v = w.
Proof.
  intros px b v w [V1 V2] [W1 W2]. specialize (V2 0%nat ltac:(lia)). specialize (W2 0%nat ltac:(lia)).
  rewrite <- (to_565_rgb v V1 (px b 0%nat) V2). apply to_565_rgb; assumption.
Qed.
Lemma one_alpha_unique : forall b v w, one_alpha b v -> one_alpha b w -> v = w.
Proof. intros b v w [_ V] [_ W]. rewrite <- (V 0%nat) by lia. apply W. lia. Qed.
Lemma solid_not_transparent : forall b v, bc1_solid b v -> bc1_transparent b -> False.
Proof.
  intros b v [_ V] T. specialize (V 0%nat ltac:(lia)). specialize (T 0%nat ltac:(lia)). rewrite T in V. destruct (rgb v) as [[? ?] ?]. discriminate V.
Qed.

(** Equal pictures: equal conditions. *)
Lemma transparent_picture : forall b c, picture bc1_pixel b = picture bc1_pixel c -> bc1_transparent b -> bc1_transparent c.
Proof. intros b c E T i I. rewrite (picture_inv _ _ _ (eq_sym E) i I). apply T. exact I. Qed.
Lemma solid_picture : forall b c v, picture bc1_pixel b = picture bc1_pixel c -> bc1_solid b v -> bc1_solid c v.
Proof. intros b c v E [V T]. split; [exact V|]. intros i I. rewrite (picture_inv _ _ _ (eq_sym E) i I). apply T. exact I. Qed.
Lemma one_colour_picture : forall px b c v, picture px b = picture px c -> one_colour px b v -> one_colour px c v.
Proof. intros px b c v E [V T]. split; [exact V|]. intros i I. rewrite (picture_inv _ _ _ (eq_sym E) i I). apply T. exact I. Qed.
Lemma one_alpha_picture : forall b c v, picture bc3_pixel b = picture bc3_pixel c -> one_alpha b v -> one_alpha c v.
Proof. intros b c v E [V T]. split; [exact V|]. intros i I. rewrite (picture_inv _ _ _ (eq_sym E) i I). apply T. exact I. Qed.

Lemma bc1_canonical : forall mode b c b' c', mode <> CNone -> picture bc1_pixel b = picture bc1_pixel c ->
  bc1_transparent b \/ (exists v, bc1_solid b v) -> bc1_normal mode b b' -> bc1_normal mode c c' -> b' = c'.
Proof.
  intros mode b c b' c' M E N [[? _]|[_ B]] [[? _]|[_ C]]; [congruence|congruence|congruence|].
  destruct B as [[BT ->]|[[v [BS ->]]|[B1 [B2 _]]]]; [| |destruct N; contradiction].
  - pose proof (transparent_picture _ _ E BT) as CT. destruct C as [[_ ->]|[[w [CS _]]|[C1 _]]]; [reflexivity|destruct (solid_not_transparent _ _ CS CT)|contradiction].
  - pose proof (solid_picture _ _ _ E BS) as CS. destruct C as [[CT _]|[[w [CW ->]]|[_ [C2 _]]]].
    + destruct (solid_not_transparent _ _ CS CT).
    + rewrite (solid_unique _ _ _ CS CW). reflexivity.
    + destruct C2. exists v. exact CS.
Qed.
Lemma bc1_functional : forall mode b b' b'', bc1_normal mode b b' -> bc1_normal mode b b'' -> b' = b''.
Proof.
  intros mode b b' b'' B C. destruct (match mode with CNone => true | _ => false end) eqn:MD.
  - destruct mode; try discriminate MD. destruct B as [[_ ->]|[X _]], C as [[_ ->]|[Y _]]; (reflexivity || congruence).
  - assert (M : mode <> CNone) by (destruct mode; discriminate || congruence).
    assert (B0 := B). destruct B as [[? _]|[_ [[BT _]|[[v [BS _]]|[B1 [B2 ->]]]]]]; [congruence| | |].
    + apply (bc1_canonical mode b b); auto.
    + apply (bc1_canonical mode b b); eauto.
    + destruct C as [[? _]|[_ [[CT _]|[[w [CS _]]|[_ [_ ->]]]]]]; [congruence|contradiction|destruct B2; exists w; exact CS|reflexivity].
Qed.
Lemma bc1_idempotent : forall mode b b' b'', bc1_normal mode b b' -> bc1_normal mode b' b'' -> b'' = b'.
Proof.
  intros mode b b' b'' B C. assert (B0 := B). destruct B as [[-> ->]|[M B]].
  - destruct C as [[_ ->]|[? _]]; [reflexivity|congruence].
  - pose proof (bc1_normal_picture _ _ _ B0) as P. destruct B as [[BT _]|[[v [BS _]]|[B1 [B2 ->]]]].
    + symmetry. apply (bc1_canonical mode b b'); auto.
    + symmetry. apply (bc1_canonical mode b b'); eauto.
    + apply (bc1_functional mode b); assumption.
Qed.

Lemma colour_canonical : forall px mode b c b' c', mode <> CNone -> picture px b = picture px c -> (exists v, one_colour px b v) ->
  colour_normal px mode b b' -> colour_normal px mode c c' -> b' = c'.
Proof.
  intros px mode b c b' c' M E [v N] [[? _]|[_ B]] [[? _]|[_ C]]; [congruence|congruence|congruence|].
  pose proof (one_colour_picture _ _ _ _ E N) as N'.
  destruct B as [[w [W ->]]|[W _]]; [|destruct W; exists v; exact N]. destruct C as [[u [U ->]]|[U _]]; [|destruct U; exists v; exact N'].
  rewrite (one_colour_unique _ _ _ _ W N), (one_colour_unique _ _ _ _ U N'). reflexivity.
Qed.
Lemma colour_functional : forall px mode b c c', colour_normal px mode b c -> colour_normal px mode b c' -> c = c'.
Proof.
  intros px mode b c c' B C. destruct B as [[-> ->]|[M [[v [V ->]]|[N ->]]]], C as [[M' ->]|[M' [[w [W ->]]|[N' ->]]]]; try congruence.
  - rewrite (one_colour_unique _ _ _ _ V W). reflexivity.
  - destruct N'. exists v. exact V.
  - destruct N. exists w. exact W.
Qed.
Lemma alpha_canonical : forall mode b c b' c', mode <> ANone -> picture bc3_pixel b = picture bc3_pixel c -> (exists a, one_alpha b a) ->
  alpha_normal mode b b' -> alpha_normal mode c c' -> b' = c'.
Proof.
  intros mode b c b' c' M E [v N] [[? _]|[_ B]] [[? _]|[_ C]]; [congruence|congruence|congruence|].
  pose proof (one_alpha_picture _ _ _ E N) as N'.
  destruct B as [[w [W ->]]|[W _]]; [|destruct W; exists v; exact N]. destruct C as [[u [U ->]]|[U _]]; [|destruct U; exists v; exact N'].
  rewrite (one_alpha_unique _ _ _ W N), (one_alpha_unique _ _ _ U N'). reflexivity.
Qed.
Lemma alpha_functional : forall mode b c c', alpha_normal mode b c -> alpha_normal mode b c' -> c = c'.
Proof.
  intros mode b c c' B C. destruct B as [[-> ->]|[M [[v [V ->]]|[N ->]]]], C as [[M' ->]|[M' [[w [W ->]]|[N' ->]]]]; try congruence.
  - rewrite (one_alpha_unique _ _ _ V W). reflexivity.
  - destruct N'. exists v. exact V.
  - destruct N. exists w. exact W.
Qed.
Lemma bc2_functional : forall mode b b' b'', bc2_normal mode b b' -> bc2_normal mode b b'' -> b' = b''.
Proof. intros mode b b' b'' [c [C ->]] [d [D ->]]. rewrite (colour_functional _ _ _ _ _ C D). reflexivity. Qed.
Lemma bc3_functional : forall am cm b b' b'', bc3_normal am cm b b' -> bc3_normal am cm b b'' -> b' = b''.
Proof. intros am cm b b' b'' [a [c [A [C ->]]]] [d [e [D [F ->]]]]. rewrite (colour_functional _ _ _ _ _ C F), (alpha_functional _ _ _ _ A D). reflexivity. Qed.

Lemma bc2_idempotent : forall mode b b' b'', zlen b = 16 -> bc2_normal mode b b' -> bc2_normal mode b' b'' -> b'' = b'.
Proof.
  intros mode b b' b'' L B C. pose proof (bc2_normal_picture _ _ _ L B) as P. destruct B as [c [B ->]], C as [d [C ->]].
  assert (L8 : zlen (slice b 0 8) = 8) by (apply zlen_slice; lia). pose proof (colour_normal_len _ _ _ _ L B) as LC.
  rewrite slice_app1 by exact L8. f_equal. destruct B as [[-> ->]|[M B]].
  - destruct C as [[_ ->]|[? _]]; [|congruence]. apply slice_app2'; [exact L8|exact LC].
  - destruct B as [[v [V ->]]|[N ->]].
    + symmetry. apply (colour_canonical bc2_pixel mode b (slice b 0 8 ++ solid_bytes mode v)); eauto. right. split; [exact M|]. left. eauto.
    + rewrite <- (halves b L) in C. apply (colour_functional bc2_pixel mode b); [exact C|]. right. auto.
Qed.
Lemma bc3_idempotent : forall am cm b b' b'', zlen b = 16 -> bc3_normal am cm b b' -> bc3_normal am cm b' b'' -> b'' = b'.
Proof.
  intros am cm b b' b'' L B C. pose proof (bc3_normal_picture _ _ _ _ L B) as P. destruct B as [a [c [A [B ->]]]], C as [d [e [D [C ->]]]].
  pose proof (colour_normal_len _ _ _ _ L B) as LC. pose proof (alpha_normal_len _ _ _ L A) as LA.
  f_equal.
  - destruct D as [[-> ->]|[M D]]; [apply slice_app1; exact LA|]. destruct A as [[? _]|[_ [[v [V ->]]|[N ->]]]]; [congruence| |].
    + symmetry. apply (alpha_canonical am b (alpha_bytes am v ++ c)); eauto; right; (split; [exact M|]); eauto.
    + destruct D as [[w [W _]]|[_ ->]]; [|apply slice_app1; exact LA]. destruct N. exists w. apply (one_alpha_picture _ _ _ P W).
  - destruct C as [[-> ->]|[M C]]; [apply slice_app2'; assumption|]. destruct B as [[? _]|[_ [[v [V ->]]|[N ->]]]]; [congruence| |].
    + symmetry. apply (colour_canonical bc3_pixel cm b (a ++ solid_bytes cm v)); eauto; right; (split; [exact M|]); eauto.
    + destruct C as [[w [W _]]|[_ ->]]; [|apply slice_app2'; assumption]. destruct N. exists w. apply (one_colour_picture _ _ _ _ P W).
Qed.

(** Textures. *)
Lemma blockwise_functional : forall size (R : list byte -> list byte -> Prop) x y z, 0 < size -> zlen x mod size = 0 ->
  (forall b b' b'', zlen b = size -> R b b' -> R b b'' -> b' = b'') -> blockwise size R x y -> blockwise size R x z -> y = z.
Proof.
  intros size R x y z S M F [Y1 Y2] [Z1 Z2]. apply znth_ext; [lia|]. intros i I. set (k := i / size).
  pose proof (Z.div_mod i size ltac:(lia)) as DM. pose proof (Z.mod_pos_bound i size S) as MB. fold k in DM.
  pose proof (Z.div_mod (zlen x) size ltac:(lia)) as DX. rewrite M in DX.
  assert (K : 0 <= k) by (apply Z.div_pos; lia). assert (KB : size * (k + 1) <= zlen x).
  { assert (k < zlen x / size) by nia. nia. }
  assert (E : slice y (size * k) size = slice z (size * k) size).
  { apply (F (slice x (size * k) size)); [apply zlen_slice; nia|apply Y2; assumption|apply Z2; assumption]. }
  assert (X : znth (slice y (size * k) size) (i mod size) = znth (slice z (size * k) size) (i mod size)) by (rewrite E; reflexivity).
  rewrite !znth_slice in X by nia. replace (size * k + i mod size) with i in X by lia. exact X.
Qed.

(** The picture of a texture: the pixels of its blocks. *)
Lemma blockwise_picture : forall size px (R : list byte -> list byte -> Prop) x y, 0 < size -> (forall b b', zlen b = size -> R b b' -> picture px b' = picture px b) ->
  blockwise size R x y -> blockwise size (fun b b' => picture px b' = picture px b) x y.
Proof. intros size px R x y S H. apply blockwise_impl; [exact S|]. intros b b' L. apply H. exact L. Qed.

(** Agreement of the functions for one mode and for all modes. *)
Lemma lC39_bc1_same : forall debug m inp len o0 o1 o2, within m inp len -> within m o0 len -> within m o1 len -> within m o2 len -> len mod 8 = 0 ->
  apart len inp o0 -> (inp = o1 \/ apart len inp o1) -> (inp = o2 \/ apart len inp o2) ->
  apart len o0 o1 -> apart len o0 o2 -> apart len o1 o2 ->
  exists any m', bc1_normalize_blocks_all_modes debug inp [o0; o1; o2] len m = Ok (any, m') /\
    only_changes [(o0, len); (o1, len); (o2, len)] m m' /\
    (forall mode o, In (mode, o) [(Color0Only, o1); (ReplicateColor, o2)] ->
      exists m1, bc1_normalize_blocks debug inp o len mode m = Ok m1 /\ slice m' o len = slice m1 o len) /\
    blockwise 8 bc1_kept (slice m inp len) (slice m' o0 len) /\
    (any = true <-> exists k, 0 <= k /\ 8 * (k + 1) <= len /\
       (bc1_transparent (slice m (inp + 8 * k) 8) \/ exists v, bc1_solid (slice m (inp + 8 * k) 8) v)).
Proof.
  intros debug m inp len o0 o1 o2 WI W0 W1 W2 M8 A0 A1 A2 A01 A02 A12.
  destruct (lC39_bc1 debug m inp len o0 o1 o2 WI W0 W1 W2 M8 A0 A1 A2 A01 A02 A12) as [any [m' [E [OC [K0 [K1 [K2 AN]]]]]]].
  exists any, m'. split; [exact E|]. split; [exact OC|]. split; [|split; [exact K0|exact AN]].
  intros mode o I. assert (Q : within m o len /\ (inp = o \/ apart len inp o)) by (destruct I as [I|[I|[]]]; injection I as <- <-; auto). destruct Q as [WO AO].
  destruct (lC37_bc1 debug m inp o len mode WI WO M8 AO) as [m1 [E1 [_ B1]]]. exists m1. split; [exact E1|].
  apply (blockwise_functional 8 (bc1_normal mode) (slice m inp len)); [lia| | |destruct I as [I|[I|[]]]; injection I as <- <-; assumption|exact B1].
  - destruct WI as [? [? ?]]. rewrite zlen_slice by lia. exact M8.
  - intros b b' b'' _. apply bc1_functional.
Qed.
Lemma lC39_bc2_same : forall debug m inp len o0 o1 o2, within m inp len -> within m o0 len -> within m o1 len -> within m o2 len -> len mod 16 = 0 ->
  (inp = o0 \/ apart len inp o0) -> (inp = o1 \/ apart len inp o1) -> (inp = o2 \/ apart len inp o2) ->
  apart len o0 o1 -> apart len o0 o2 -> apart len o1 o2 ->
  exists m', bc2_normalize_blocks_all_modes debug inp [o0; o1; o2] len m = Ok m' /\
    only_changes [(o0, len); (o1, len); (o2, len)] m m' /\
    forall mode o, In (mode, o) [(CNone, o0); (Color0Only, o1); (ReplicateColor, o2)] ->
      exists m1, bc2_normalize_blocks debug inp o len mode m = Ok m1 /\ slice m' o len = slice m1 o len.
Proof.
  intros debug m inp len o0 o1 o2 WI W0 W1 W2 M16 A0 A1 A2 A01 A02 A12.
  destruct (lC39_bc2 debug m inp len o0 o1 o2 WI W0 W1 W2 M16 A0 A1 A2 A01 A02 A12) as [m' [E [OC K]]].
  exists m'. split; [exact E|]. split; [exact OC|].
  intros mode o I. assert (Q : within m o len /\ (inp = o \/ apart len inp o)) by (destruct I as [I|[I|[I|[]]]]; injection I as <- <-; auto). destruct Q as [WO AO].
  destruct (lC38_bc2 debug m inp o len mode WI WO M16 AO) as [m1 [E1 [_ B1]]]. exists m1. split; [exact E1|].
  apply (blockwise_functional 16 (bc2_normal mode) (slice m inp len)); [lia| | |apply K; exact I|exact B1].
  - destruct WI as [? [? ?]]. rewrite zlen_slice by lia. exact M16.
  - intros b b' b'' _. apply bc2_functional.
Qed.
Lemma lC39_bc3_same : forall debug m inp len (outs : list Z), within m inp len -> List.length outs = 12%nat -> len mod 16 = 0 ->
  (forall o, In o outs -> within m o len /\ apart len inp o) -> ForallOrdPairs (apart len) outs ->
  exists m', bc3_normalize_blocks_all_modes debug inp outs len m = Ok m' /\
    only_changes (map (fun o => (o, len)) outs) m m' /\
    forall amode cmode o, In (amode, cmode, o) (combine all_norms outs) ->
      exists m1, bc3_normalize_blocks debug inp o len amode cmode m = Ok m1 /\ slice m' o len = slice m1 o len.
Proof.
  intros debug m inp len outs WI LO M16 AO PO.
  destruct (lC39_bc3 debug m inp len outs WI LO M16 AO PO) as [m' [E [OC K]]].
  exists m'. split; [exact E|]. split; [exact OC|].
  intros amode cmode o I. destruct (AO o (in_combine_r _ _ _ _ I)) as [WO A].
  destruct (lC38_bc3 debug m inp o len amode cmode WI WO M16 (or_intror A)) as [m1 [E1 [_ B1]]]. exists m1. split; [exact E1|].
  apply (blockwise_functional 16 (bc3_normal amode cmode) (slice m inp len)); [lia| | |apply K; exact I|exact B1].
  - destruct WI as [? [? ?]]. rewrite zlen_slice by lia. exact M16.
  - intros b b' b'' _. apply bc3_functional.
Qed.

(** Counterexamples. *)
Lemma lC39_bc1_none_refuted : exists m inp len o0 o1 o2, within m inp len /\ within m o0 len /\ within m o1 len /\ within m o2 len /\ len mod 8 = 0 /\
  apart len inp o0 /\ apart len inp o1 /\ apart len inp o2 /\ apart len o0 o1 /\ apart len o0 o2 /\ apart len o1 o2 /\
  forall debug, exists any m' m1,
    bc1_normalize_blocks_all_modes debug inp [o0; o1; o2] len m = Ok (any, m') /\
    bc1_normalize_blocks debug inp o0 len CNone m = Ok m1 /\ slice m' o0 len <> slice m1 o0 len.
Proof.
  exists ([x00; x00; x01; x00; xff; xff; xff; xff] ++ repeat x00 24), 0, 8, 8, 16, 24.
  unfold within, apart. do 11 (split; [vm_compute; intuition congruence|]).
  intros debug. destruct debug; do 3 eexists; (split; [vm_compute; reflexivity|]); (split; [vm_compute; reflexivity|]); vm_compute; discriminate.
Qed.

(** In place, with the buffer of mode None: the picture in that buffer changes. *)
Lemma lC39_bc1_in_place_refuted : exists m len o1 o2, within m 0 len /\ within m o1 len /\ within m o2 len /\ len mod 8 = 0 /\
  apart len 0 o1 /\ apart len 0 o2 /\ apart len o1 o2 /\
  forall debug, exists any m', bc1_normalize_blocks_all_modes debug 0 [0; o1; o2] len m = Ok (any, m') /\
    picture bc1_pixel (slice m' 0 8) <> picture bc1_pixel (slice m 0 8).
Proof.
  exists ([x03; x00; x00; x00; xaa; xaa; xaa; xaa] ++ repeat x00 16), 8, 8, 16.
  unfold within, apart. do 7 (split; [vm_compute; intuition congruence|]).
  intros debug. destruct debug; do 2 eexists; (split; [vm_compute; reflexivity|]); vm_compute; discriminate.
Qed.

(** BC3 in place: debug builds panic; release builds write other bytes than for that mode alone. *)
Lemma lC39_bc3_in_place_refuted : exists m len (outs : list Z) i amode cmode o, within m 0 len /\ len mod 16 = 0 /\ List.length outs = 12%nat /\
  (forall o, In o outs -> within m o len /\ (0 = o \/ apart len 0 o)) /\ ForallOrdPairs (apart len) outs /\
  nth i outs 1 = 0 /\ In (amode, cmode, o) (combine all_norms outs) /\
  (exists w, bc3_normalize_blocks_all_modes true 0 outs len m = Panic w) /\
  exists m' m1, bc3_normalize_blocks_all_modes false 0 outs len m = Ok m' /\
    bc3_normalize_blocks false 0 o len amode cmode m = Ok m1 /\ slice m' o len <> slice m1 o len.
Proof.
  exists ([x05; x00; x00; x00; x00; x00; x00; x00; x00; x00; x0f; x00; x55; x55; x55; x55] ++ repeat x00 192), 16,
    [16; 0; 32; 48; 64; 80; 96; 112; 128; 144; 160; 176], 1%nat, UniformAlphaZeroIndices, CNone, 48.
  split; [vm_compute; intuition congruence|]. split; [reflexivity|]. split; [reflexivity|].
  split; [intros o I; repeat (destruct I as [<-|I]; [vm_compute; intuition congruence|]); destruct I|].
  split.
  { repeat (apply List.FOP_cons; [apply Forall_forall; intros y Y; unfold apart; repeat (destruct Y as [<-|Y]; [lia|]); destruct Y|]). apply List.FOP_nil. }
  split; [reflexivity|]. split; [vm_compute; tauto|]. split; [eexists; vm_compute; reflexivity|].
  do 2 eexists. split; [vm_compute; reflexivity|]. split; [vm_compute; reflexivity|]. vm_compute. discriminate.
Qed.

(** Statements with the pictures. *)
Lemma lC37 : forall debug m inp out len mode, within m inp len -> within m out len -> len mod 8 = 0 -> inp = out \/ apart len inp out ->
  exists m', bc1_normalize_blocks debug inp out len mode m = Ok m' /\ only_changes [(out, len)] m m' /\
    blockwise 8 (fun b b' => picture bc1_pixel b' = picture bc1_pixel b) (slice m inp len) (slice m' out len) /\
    blockwise 8 (bc1_normal mode) (slice m inp len) (slice m' out len).
Proof.
  intros debug m inp out len mode WI WO M A. destruct (lC37_bc1 debug m inp out len mode WI WO M A) as [m' [E [OC B]]].
  exists m'. split; [exact E|]. split; [exact OC|]. split; [|exact B]. revert B. apply blockwise_picture; [lia|]. intros b b' _. apply bc1_normal_picture.
Qed.
Lemma lC38 : forall debug m inp out len, within m inp len -> within m out len -> len mod 16 = 0 -> inp = out \/ apart len inp out ->
  (forall mode, exists m', bc2_normalize_blocks debug inp out len mode m = Ok m' /\ only_changes [(out, len)] m m' /\
    blockwise 16 (fun b b' => picture bc2_pixel b' = picture bc2_pixel b) (slice m inp len) (slice m' out len) /\
    blockwise 16 (bc2_normal mode) (slice m inp len) (slice m' out len)) /\
  (forall amode cmode, exists m', bc3_normalize_blocks debug inp out len amode cmode m = Ok m' /\ only_changes [(out, len)] m m' /\
    blockwise 16 (fun b b' => picture bc3_pixel b' = picture bc3_pixel b) (slice m inp len) (slice m' out len) /\
    blockwise 16 (bc3_normal amode cmode) (slice m inp len) (slice m' out len)).
Proof.
  intros debug m inp out len WI WO M A. split.
  - intros mode. destruct (lC38_bc2 debug m inp out len mode WI WO M A) as [m' [E [OC B]]].
    exists m'. split; [exact E|]. split; [exact OC|]. split; [|exact B]. revert B. apply blockwise_picture; [lia|]. apply bc2_normal_picture.
  - intros amode cmode. destruct (lC38_bc3 debug m inp out len amode cmode WI WO M A) as [m' [E [OC B]]].
    exists m'. split; [exact E|]. split; [exact OC|]. split; [|exact B]. revert B. apply blockwise_picture; [lia|]. apply bc3_normal_picture.
Qed.

Lemma gather_len16 : forall m parts n k, parts_ok m parts n -> 0 <= k < n -> zlen (gather m parts k) = fold_right (fun p s => snd p + s) 0 parts.
Proof.
  intros m parts n k P K. destruct (parts_fit _ _ _ _ P K) as [F1 _]. clear P K. unfold gather. induction parts as [|[p w] parts IH]; [reflexivity|].
  cbn [flat_map fold_right snd]. rewrite zlen_app. rewrite IH by (intros; apply F1; right; assumption). destruct (F1 p w (or_introl eq_refl)) as [W [X Y]].
  rewrite zlen_slice by lia. reflexivity.
Qed.
Lemma lC37_split_picture : forall m colors indices n mode (parts := [(colors, 4); (indices, 4)]), parts_ok m parts (Z.of_nat n) ->
  exists m', bc1_normalize_split_blocks_in_place colors indices n mode m = Ok m' /\
    only_changes [(colors, 4 * Z.of_nat n); (indices, 4 * Z.of_nat n)] m m' /\
    forall k, 0 <= k < Z.of_nat n ->
      picture bc1_pixel (gather m' parts k) = picture bc1_pixel (gather m parts k) /\ bc1_normal mode (gather m parts k) (gather m' parts k).
Proof.
  intros m colors indices n mode parts P. destruct (lC37_split m colors indices n mode P) as [m' [E [OC B]]].
  exists m'. split; [exact E|]. split; [exact OC|]. intros k K. split; [apply (bc1_normal_picture mode)|]; apply B; exact K.
Qed.
Lemma lC38_split_picture_bc2 : forall m alpha colors indices n mode (parts := [(alpha, 8); (colors, 4); (indices, 4)]), parts_ok m parts (Z.of_nat n) ->
  exists m', bc2_normalize_split_blocks_in_place alpha colors indices n mode m = Ok m' /\
    only_changes [(colors, 4 * Z.of_nat n); (indices, 4 * Z.of_nat n)] m m' /\
    forall k, 0 <= k < Z.of_nat n ->
      picture bc2_pixel (gather m' parts k) = picture bc2_pixel (gather m parts k) /\ bc2_normal mode (gather m parts k) (gather m' parts k).
Proof.
  intros m alpha colors indices n mode parts P. destruct (lC38_split_bc2 m alpha colors indices n mode P) as [m' [E [OC B]]].
  exists m'. split; [exact E|]. split; [exact OC|]. intros k K. split; [|apply B; exact K].
  apply (bc2_normal_picture mode); [exact (gather_len16 _ _ _ _ P K)|apply B; exact K].
Qed.
Lemma lC38_split_picture_bc3 : forall m ae ai ce ci n amode cmode (parts := [(ae, 2); (ai, 6); (ce, 4); (ci, 4)]), parts_ok m parts (Z.of_nat n) ->
  exists m', bc3_normalize_split_blocks_in_place ae ai ce ci n amode cmode m = Ok m' /\
    only_changes [(ae, 2 * Z.of_nat n); (ai, 6 * Z.of_nat n); (ce, 4 * Z.of_nat n); (ci, 4 * Z.of_nat n)] m m' /\
    forall k, 0 <= k < Z.of_nat n ->
      picture bc3_pixel (gather m' parts k) = picture bc3_pixel (gather m parts k) /\ bc3_normal amode cmode (gather m parts k) (gather m' parts k).
Proof.
  intros m ae ai ce ci n amode cmode parts P. destruct (lC38_split_bc3 m ae ai ce ci n amode cmode P) as [m' [E [OC B]]].
  exists m'. split; [exact E|]. split; [exact OC|]. intros k K. split; [|apply B; exact K].
  apply (bc3_normal_picture amode cmode); [exact (gather_len16 _ _ _ _ P K)|apply B; exact K].
Qed.

Lemma lC37_canonical : forall mode b c b' c', mode <> CNone -> bc1_normal mode b b' -> bc1_normal mode c c' ->
  (picture bc1_pixel b = picture bc1_pixel c -> bc1_transparent b \/ (exists v, bc1_solid b v) -> b' = c') /\
  (b = c -> b' = c') /\ (b' = c -> c' = b').
Proof.
  intros mode b c b' c' M B C. split; [intros E N; apply (bc1_canonical mode b c); assumption|].
  split; [intros <-; apply (bc1_functional mode b); assumption|intros <-; apply (bc1_idempotent mode b); assumption].
Qed.
Lemma lC38_canonical_bc2 : forall mode b c b' c', zlen b = 16 -> zlen c = 16 -> mode <> CNone -> bc2_normal mode b b' -> bc2_normal mode c c' ->
  (picture bc2_pixel b = picture bc2_pixel c -> (exists v, one_colour bc2_pixel b v) -> slice b' 8 8 = slice c' 8 8) /\
  (b = c -> b' = c') /\ (b' = c -> c' = b').
Proof.
  intros mode b c b' c' L L' M B C. split.
  - intros E N. destruct B as [x [X ->]], C as [y [Y ->]].
    pose proof (colour_normal_len _ _ _ _ L X) as Lx. pose proof (colour_normal_len _ _ _ _ L' Y) as Ly.
    rewrite (slice_app2' (slice b 0 8) x 8 8) by (exact Lx || (apply zlen_slice; lia)).
    rewrite (slice_app2' (slice c 0 8) y 8 8) by (exact Ly || (apply zlen_slice; lia)).
    apply (colour_canonical bc2_pixel mode b c); assumption.
  - split; [intros <-; apply (bc2_functional mode b); assumption|intros <-; apply (bc2_idempotent mode b); assumption].
Qed.
Lemma lC38_canonical_bc3 : forall amode cmode b c b' c', zlen b = 16 -> zlen c = 16 -> bc3_normal amode cmode b b' -> bc3_normal amode cmode c c' ->
  (cmode <> CNone -> picture bc3_pixel b = picture bc3_pixel c -> (exists v, one_colour bc3_pixel b v) -> slice b' 8 8 = slice c' 8 8) /\
  (amode <> ANone -> picture bc3_pixel b = picture bc3_pixel c -> (exists a, one_alpha b a) -> slice b' 0 8 = slice c' 0 8) /\
  (b = c -> b' = c') /\ (b' = c -> c' = b').
Proof.
  intros amode cmode b c b' c' L L' B C. split; [|split].
  - intros M E N. destruct B as [u [x [U [X ->]]]], C as [v [y [V [Y ->]]]].
    pose proof (colour_normal_len _ _ _ _ L X) as Lx. pose proof (colour_normal_len _ _ _ _ L' Y) as Ly.
    pose proof (alpha_normal_len _ _ _ L U) as Lu. pose proof (alpha_normal_len _ _ _ L' V) as Lv.
    rewrite (slice_app2' u x 8 8 Lu Lx), (slice_app2' v y 8 8 Lv Ly). apply (colour_canonical bc3_pixel cmode b c); assumption.
  - intros M E N. destruct B as [u [x [U [X ->]]]], C as [v [y [V [Y ->]]]].
    pose proof (alpha_normal_len _ _ _ L U) as Lu. pose proof (alpha_normal_len _ _ _ L' V) as Lv.
    rewrite (slice_app1 u x 8 Lu), (slice_app1 v y 8 Lv). apply (alpha_canonical amode b c); assumption.
  - split; [intros <-; apply (bc3_functional amode cmode b); assumption|intros <-; apply (bc3_idempotent amode cmode b); assumption].
Qed.
