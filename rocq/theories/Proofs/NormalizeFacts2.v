(** BC2 and BC3 normalisation, and the functions on separated parts. *)
From Verif Require Import Base.Bytes Base.Res Model.Color565 Model.Decode Model.Normalize Spec.Pixels Spec.Normalize
  Proofs.DecodeFacts Proofs.NormLoop Proofs.NormPixels Proofs.NormalizeFacts.
From Coq Require Import ZifyBool ZifyNat.

(** ** Two halves of a block *)
Definition halves_apart (src dst : Z) : Prop := dst = src \/ apart 16 dst src.

Lemma slice_slice : forall (m : list byte) p n q k, 0 <= p -> 0 <= q -> 0 <= k -> q + k <= n -> p + n <= zlen m ->
  slice (slice m p n) q k = slice m (p + q) k.
Proof.
  intros m p n q k H1 H2 H3 H4 H5. apply znth_ext.
  - rewrite !zlen_slice by (rewrite ?zlen_slice by lia; lia). reflexivity.
  - intros i I. rewrite zlen_slice in I by (rewrite ?zlen_slice by lia; lia). rewrite !znth_slice by lia. f_equal. lia.
Qed.

(** Copying the second half after anything was written to the first half of the destination. *)
Lemma second_half : forall m src dst x, 0 <= src -> src + 16 <= zlen m -> 0 <= dst -> dst + 16 <= zlen m -> halves_apart src dst -> zlen x = 8 ->
  copy8 (splice m dst x) (src + 8) (dst + 8) = Ok (splice m dst (x ++ slice (slice m src 16) 8 8)).
Proof.
  intros m src dst x S1 S2 D1 D2 AP L. unfold halves_apart, apart in AP.
  assert (L1 : zlen (splice m dst x) = zlen m) by (apply zlen_splice; lia).
  rewrite copy8_ok by lia. rewrite slice_splice_apart by lia. rewrite slice_slice by lia.
  assert (L2 : zlen (slice m (src + 8) 8) = 8) by (apply zlen_slice; lia).
  replace (dst + 8) with (dst + zlen x) by lia. rewrite splice_splice by lia. reflexivity.
Qed.
Lemma second_assign : forall m dst x y, 0 <= dst -> dst + 16 <= zlen m -> zlen x = 8 -> zlen y = 8 ->
  assign (splice m dst x) (dst + 8) y = Ok (splice m dst (x ++ y)).
Proof.
  intros m dst x y D1 D2 L L'. assert (L1 : zlen (splice m dst x) = zlen m) by (apply zlen_splice; lia).
  rewrite assign_ok by lia. replace (dst + 8) with (dst + zlen x) by lia. rewrite splice_splice by lia. reflexivity.
Qed.

Lemma first_half : forall (m : list byte) src, 0 <= src -> src + 16 <= zlen m -> slice (slice m src 16) 0 8 = slice m src 8.
Proof. intros m src H1 H2. rewrite slice_slice by lia. f_equal. lia. Qed.

Lemma solid_false : forall v, solid_endpoints v false ++ zero_indices = solid_bytes Color0Only v.
Proof. reflexivity. Qed.
Lemma solid_true : forall v, solid_endpoints v true ++ zero_indices = solid_bytes ReplicateColor v.
Proof. reflexivity. Qed.

(** ** BC2 *)
Definition colour_write (solid : option Z) (mode : color_norm) (b : list byte) : list byte :=
  match solid, mode with Some v, Color0Only => solid_bytes Color0Only v | Some v, ReplicateColor => solid_bytes ReplicateColor v | _, _ => slice b 8 8 end.
Definition bc2_write (solid : option Z) (mode : color_norm) (b : list byte) : list byte := slice b 0 8 ++ colour_write solid mode b.
Definition bc2_G (mode : color_norm) (b : list byte) : list byte := bc2_write (solid_color (picture bc2_pixel b)) mode b.

Lemma colour_write_len : forall solid mode b, zlen b = 16 -> zlen (colour_write solid mode b) = 8.
Proof.
  intros solid mode b L. unfold colour_write. destruct solid as [v|]; [destruct mode|]; try apply solid_len; apply zlen_slice; lia.
Qed.
Lemma bc2_write_len : forall solid mode b, zlen b = 16 -> zlen (bc2_write solid mode b) = 16.
Proof. intros solid mode b L. unfold bc2_write. rewrite zlen_app, colour_write_len by exact L. rewrite zlen_slice by lia. reflexivity. Qed.
Lemma bc2_G_len : forall mode b, zlen b = 16 -> zlen (bc2_G mode b) = 16.
Proof. intros. apply bc2_write_len. assumption. Qed.

Lemma colour_write_normal : forall px mode b, (forall i, small (px b i)) -> colour_normal px mode b (colour_write (solid_color (picture px b)) mode b).
Proof.
  intros px mode b SM. pose proof (solid_color_ok px b SM) as C. unfold colour_write, colour_normal.
  destruct (solid_color (picture px b)) as [v|].
  - destruct mode; [left; auto| |]; right; (split; [discriminate|]); left; exists v; auto.
  - destruct mode; [left; auto| |]; right; (split; [discriminate|]); right; auto.
Qed.
Lemma bc2_G_normal : forall mode b, bc2_normal mode b (bc2_G mode b).
Proof.
  intros mode b. exists (colour_write (solid_color (picture bc2_pixel b)) mode b). split; [|reflexivity].
  apply colour_write_normal. intros i. apply colour_of_small.
Qed.

Definition always {A} (_ : A) : bool := true.
Definition never {A} (_ : A) : bool := false.
Lemma place_always : forall A src (a : A) dst, place always 16 src (a, dst) -> halves_apart src dst.
Proof. intros A src a dst [[E _]|E]; [left; exact E|right; exact E]. Qed.

Lemma bc2_block_ok : forall solid mode src dst m, 0 <= src -> src + 16 <= zlen m -> 0 <= dst -> dst + 16 <= zlen m -> halves_apart src dst ->
  bc2_block src solid mode dst m = Ok (splice m dst (bc2_write solid mode (slice m src 16))).
Proof.
  intros solid mode src dst m S1 S2 D1 D2 AP. unfold bc2_block, bc2_write, colour_write. rewrite first_half by lia. rewrite copy8_ok by lia. cbn [bind].
  assert (L : zlen (slice m src 8) = 8) by (apply zlen_slice; lia).
  destruct solid as [v|]; [unfold bc2_write_solid; destruct mode|].
  - apply second_half; assumption.
  - rewrite solid_false. apply second_assign; try assumption. apply solid_len.
  - rewrite solid_true. apply second_assign; try assumption. apply solid_len.
  - apply second_half; assumption.
Qed.

Lemma lC38_bc2 : forall debug m inp out len mode, within m inp len -> within m out len -> len mod 16 = 0 -> inp = out \/ apart len inp out ->
  exists m', bc2_normalize_blocks debug inp out len mode m = Ok m' /\ only_changes [(out, len)] m m' /\
    blockwise 16 (bc2_normal mode) (slice m inp len) (slice m' out len).
Proof.
  intros debug m inp out len mode WI WO M16 AP. unfold bc2_normalize_blocks. replace (len mod 16 =? 0) with true by lia. rewrite debug_ok.
  rewrite same_or_apart_ok by exact AP. rewrite debug_ok.
  assert (LEN : 0 <= len) by apply WI.
  destruct (match mode with CNone => true | _ => false end) eqn:MD.
  - destruct mode; try discriminate MD. destruct (copy_result 16 m inp out len) as [m' [E [OC BW]]]; [lia|assumption|assumption|assumption|].
    exists m'. split; [exact E|]. split; [exact OC|]. revert BW. apply blockwise_impl; [lia|]. intros b b' L ->.
    exists (slice b 8 8). split; [left; auto|]. apply halves. exact L.
  - assert (MN : mode <> CNone) by (destruct mode; discriminate || congruence).
    match goal with |- context [bc2_impl debug inp len ?h ?s] => set (H := h) end.
    assert (STEP : forall m src (ps : list (color_norm * Z)) any, valid always m 16 src ps -> map fst ps = [mode] ->
      exists m', (fun src s => do pixels <- decode_bc2_block (skipn (Z.to_nat src) (n_mem s)) ;; H src (solid_color pixels) s) src (Nst m (map snd ps) any) =
          Ok (Nst m' (map (fun d => d + 16) (map snd ps)) (any || never (slice m src 16))) /\
        writes m m' (regs ps (fun a => bc2_G a (slice m src 16)))).
    { clear m inp out len AP WI WO M16 LEN. intros m src ps any [V1 [V2 [V3 _]]] PS. destruct ps as [|[a d] [|? ?]]; [discriminate PS| |discriminate PS].
      injection PS as ->. destruct (V3 (mode, d) (or_introl eq_refl)) as [P1 [P2 P3]]. cbn [snd] in P1, P2.
      cbn [n_mem map snd]. rewrite decode2 by lia. cbn [bind]. unfold regs. cbn [map fst snd].
      assert (GL : zlen (bc2_G mode (slice m src 16)) = 16) by (apply bc2_G_len, zlen_slice; lia).
      exists (splice m d (bc2_G mode (slice m src 16))). split; [|apply splice_writes; lia].
      unfold H. cbn [n_dst n_mem n_any nth]. rewrite bc2_block_ok by (try assumption; exact (place_always _ _ _ _ P3)). cbn [bind].
      unfold never. rewrite orb_false_r. reflexivity. }
    pose proof (rounds_ok len 16 ltac:(lia) LEN M16) as RN.
    assert (V : valid always m len inp [(mode, out)]) by (apply valid1; (assumption || reflexivity)).
    destruct (loop_ok 16 ltac:(lia) bc2_G bc2_G_len never always _ [mode] STEP (rounds len 16) m inp [(mode, out)] false) as [m' [E W]];
      [rewrite <- RN; exact V|reflexivity|].
    destruct (loop_result _ 16 bc2_G always (rounds len 16) m m' inp [(mode, out)] len ltac:(lia) bc2_G_len RN V W) as [OC BW].
    exists m'. split; [|split; [exact OC|]].
    + destruct mode; [congruence| |]; unfold bc2_impl; replace (len mod 16 =? 0) with true by lia; rewrite debug_ok; cbn [map snd] in E; rewrite E; reflexivity.
    + specialize (BW mode out (or_introl eq_refl)). revert BW. apply blockwise_impl; [lia|]. intros b b' _ ->. apply bc2_G_normal.
Qed.

Lemma bc2_write_stable : forall solid a a' b, zlen b = 16 -> (a = CNone \/ a' <> CNone) -> bc2_write solid a' (bc2_write solid a b) = bc2_write solid a' b.
Proof.
  intros solid a a' b L H.
  assert (F : slice (bc2_write solid a b) 0 8 = slice b 0 8).
  { unfold bc2_write. unfold slice at 1. cbn [Z.to_nat skipn]. rewrite firstn_app_short; [|].
    - apply firstn_all2. pose proof (zlen_slice _ b 0 8 ltac:(lia) ltac:(lia) ltac:(lia)) as Q. unfold zlen in Q. lia.
    - pose proof (zlen_slice _ b 0 8 ltac:(lia) ltac:(lia) ltac:(lia)) as Q. unfold zlen in Q. lia. }
  unfold bc2_write at 1 3. rewrite F. f_equal. 
  assert (SB : colour_write solid a b = slice b 8 8 -> slice (bc2_write solid a b) 8 8 = slice b 8 8).
  { intros Q. unfold bc2_write. rewrite Q. rewrite <- (halves b L). reflexivity. }
  unfold colour_write at 1 2. destruct solid as [v|].
  - destruct a'; [|reflexivity|reflexivity]. destruct H as [->|H]; [|congruence]. apply SB. reflexivity.
  - apply SB. destruct a; reflexivity.
Qed.

Lemma lC39_bc2 : forall debug m inp len o0 o1 o2, within m inp len -> within m o0 len -> within m o1 len -> within m o2 len -> len mod 16 = 0 ->
  (inp = o0 \/ apart len inp o0) -> (inp = o1 \/ apart len inp o1) -> (inp = o2 \/ apart len inp o2) ->
  apart len o0 o1 -> apart len o0 o2 -> apart len o1 o2 ->
  exists m', bc2_normalize_blocks_all_modes debug inp [o0; o1; o2] len m = Ok m' /\
    only_changes [(o0, len); (o1, len); (o2, len)] m m' /\
    forall mode o, In (mode, o) [(CNone, o0); (Color0Only, o1); (ReplicateColor, o2)] ->
      blockwise 16 (bc2_normal mode) (slice m inp len) (slice m' o len).
Proof.
  intros debug m inp len o0 o1 o2 WI W0 W1 W2 M16 AI0 AI1 AI2 A01 A02 A12. unfold bc2_normalize_blocks_all_modes.
  assert (LEN : 0 <= len) by apply WI.
  replace (len mod 16 =? 0) with true by lia. rewrite debug_ok.
  rewrite forallb_apart by (intros o [<-|[<-|[<-|[]]]]; auto). rewrite debug_ok.
  match goal with |- context [bc2_impl debug inp len ?h ?s] => set (H := h) end.
  set (ps := [(CNone, o0); (Color0Only, o1); (ReplicateColor, o2)]).
  assert (STEP : forall m src (ps : list (color_norm * Z)) any, valid always m 16 src ps -> map fst ps = all_color_norms ->
    exists m', (fun src s => do pixels <- decode_bc2_block (skipn (Z.to_nat src) (n_mem s)) ;; H src (solid_color pixels) s) src (Nst m (map snd ps) any) =
        Ok (Nst m' (map (fun d => d + 16) (map snd ps)) (any || never (slice m src 16))) /\
      writes m m' (regs ps (fun a => bc2_G a (slice m src 16)))).
  { clear - H. intros m src ps any V PS. assert (V0 := V). destruct V as [V1 [V2 _]]. cbn [n_mem]. rewrite decode2 by lia. cbn [bind].
    unfold bc2_G. set (solid := solid_color (picture bc2_pixel (slice m src 16))).
    destruct (for_dsts_ok _ 16 (bc2_write solid) always src (bc2_block src solid)) with (ps := ps) (m := m) as [m' [E W]].
    - lia.
    - intros. apply bc2_write_len. assumption.
    - intros a d m' B1 B2 B3 B4 P. apply bc2_block_ok; try assumption. exact (place_always _ _ _ _ P).
    - assert (L : zlen (slice m src 16) = 16) by (apply zlen_slice; lia).
      clear V0. destruct ps as [|[x0 d0] [|[x1 d1] [|[x2 d2] [|? ?]]]]; try discriminate PS. injection PS as -> -> ->.
      apply List.FOP_cons; [constructor; [|constructor; [|constructor]]|apply List.FOP_cons; [constructor; [|constructor]|apply List.FOP_cons; [constructor|apply List.FOP_nil]]];
        cbn [fst snd]; intros _ _; apply bc2_write_stable; try exact L; (left; reflexivity) || (right; discriminate).
    - exact V0.
    - rewrite PS in E. exists m'. split; [|exact W]. unfold H. cbn [n_dst n_mem n_any]. fold solid. rewrite E. cbn [bind]. unfold never. rewrite orb_false_r. reflexivity. }
  pose proof (rounds_ok len 16 ltac:(lia) LEN M16) as RN.
  assert (V : valid always m len inp ps).
  { unfold ps. apply valid3; try assumption. unfold always. intros a o [E|[E|[E|[]]]]; injection E as <- <-; [destruct AI0; auto|destruct AI1; auto|destruct AI2; auto]. }
  destruct (loop_ok 16 ltac:(lia) bc2_G bc2_G_len never always _ all_color_norms STEP (rounds len 16) m inp ps false) as [m' [E W]];
    [rewrite <- RN; exact V|reflexivity|].
  destruct (loop_result _ 16 bc2_G always (rounds len 16) m m' inp ps len ltac:(lia) bc2_G_len RN V W) as [OC BW].
  exists m'. split; [|split; [exact OC|]].
  - unfold bc2_impl. replace (len mod 16 =? 0) with true by lia. rewrite debug_ok. unfold ps in E. cbn [map snd] in E. rewrite E. reflexivity.
  - intros mode o I. specialize (BW mode o I). revert BW. apply blockwise_impl; [lia|]. intros b b' _ ->. apply bc2_G_normal.
Qed.

(** ** BC3 *)
Definition alpha_write (uniform : option Z) (mode : alpha_norm) (b : list byte) : list byte :=
  match uniform, mode with None, _ => slice b 0 8 | _, ANone => slice b 0 8 | Some a, mode => alpha_bytes mode a end.
Definition uniform_of (pixels : list color8888) : option Z := if has_identical_alpha pixels then Some (c_a (nth 0 pixels blank)) else None.
Definition bc3_write (uniform solid : option Z) (modes : alpha_norm * color_norm) (b : list byte) : list byte :=
  alpha_write uniform (fst modes) b ++ colour_write solid (snd modes) b.
Definition bc3_G (modes : alpha_norm * color_norm) (b : list byte) : list byte :=
  bc3_write (uniform_of (picture bc3_pixel b)) (solid_color (picture bc3_pixel b)) modes b.

Lemma alpha_write_len : forall u mode b, zlen b = 16 -> zlen (alpha_write u mode b) = 8.
Proof. intros u mode b L. unfold alpha_write. destruct u as [a|]; [destruct mode; try apply alpha_len|]; apply zlen_slice; lia. Qed.
Lemma bc3_write_len : forall u s modes b, zlen b = 16 -> zlen (bc3_write u s modes b) = 16.
Proof. intros u s modes b L. unfold bc3_write. rewrite zlen_app, alpha_write_len, colour_write_len by exact L. reflexivity. Qed.
Lemma bc3_G_len : forall modes b, zlen b = 16 -> zlen (bc3_G modes b) = 16.
Proof. intros. apply bc3_write_len. assumption. Qed.

Lemma alpha_write_normal : forall mode b, zlen b = 16 -> alpha_normal mode b (alpha_write (uniform_of (picture bc3_pixel b)) mode b).
Proof.
  intros mode b L. unfold uniform_of, alpha_write, alpha_normal. rewrite first_pixel.
  destruct (has_identical_alpha (picture bc3_pixel b)) eqn:E.
  - rewrite identical_alpha_iff in E.
    assert (O : one_alpha b (c_a (bc3_pixel b 0))).
    { split; [|exact E]. rewrite bc3_alpha_of by exact L. apply bc3_alpha_at_bound. }
    destruct mode; [left; auto| | |]; right; (split; [discriminate|]); left; exists (c_a (bc3_pixel b 0)); split; (exact O || reflexivity).
  - assert (NO : ~ exists a, one_alpha b a).
    { intros [a [_ A]]. assert (has_identical_alpha (picture bc3_pixel b) = true); [|congruence].
      apply identical_alpha_iff. intros i I. rewrite !A by lia. reflexivity. }
    destruct mode; [left; auto| | |]; right; (split; [discriminate|]); right; auto.
Qed.
Lemma bc3_G_normal : forall amode cmode b, zlen b = 16 -> bc3_normal amode cmode b (bc3_G (amode, cmode) b).
Proof.
  intros amode cmode b L. exists (alpha_write (uniform_of (picture bc3_pixel b)) amode b), (colour_write (solid_color (picture bc3_pixel b)) cmode b).
  split; [apply alpha_write_normal; exact L|]. split; [|reflexivity]. apply colour_write_normal. intros i. apply colour_of_small.
Qed.

Lemma uniform_alpha_ok : forall m dst a, 0 <= dst -> dst + 8 <= zlen m -> uniform_alpha dst a m = Ok (splice m dst ([z2b a; x00] ++ repeat x00 6)).
Proof.
  intros m dst a D1 D2. unfold uniform_alpha. set (x := [z2b a; x00]). assert (L : zlen x = 2) by reflexivity.
  rewrite assign_ok by lia. cbn [bind]. assert (L1 : zlen (splice m dst x) = zlen m) by (apply zlen_splice; lia).
  rewrite fill_ok by lia. change (dst + 2) with (dst + zlen x). rewrite splice_splice; [reflexivity|lia|]. rewrite zlen_repeat. lia.
Qed.
Lemma normalize_alpha_ok : forall m src dst a mode, 0 <= dst -> dst + 8 <= zlen m -> mode <> ANone ->
  normalize_alpha src dst a mode m = Ok (splice m dst (alpha_bytes mode a)).
Proof.
  intros m src dst a mode D1 D2 M. rewrite alpha_bytes_eq. unfold normalize_alpha. destruct mode; [congruence| | |].
  - apply uniform_alpha_ok; assumption.
  - destruct (a =? 255); [apply fill_ok; lia|apply uniform_alpha_ok; assumption].
  - destruct (a =? 255); [|apply uniform_alpha_ok; assumption]. set (x := [x00; x00]). assert (L : zlen x = 2) by reflexivity.
    rewrite assign_ok by lia. cbn [bind]. assert (L1 : zlen (splice m dst x) = zlen m) by (apply zlen_splice; lia).
    rewrite fill_ok by lia. change (dst + 2) with (dst + zlen x). rewrite splice_splice; [reflexivity|lia|]. rewrite zlen_repeat. lia.
Qed.

Lemma bc3_block_ok : forall u s modes src dst m, 0 <= src -> src + 16 <= zlen m -> 0 <= dst -> dst + 16 <= zlen m -> halves_apart src dst ->
  bc3_block src u s modes dst m = Ok (splice m dst (bc3_write u s modes (slice m src 16))).
Proof.
  intros u s [amode cmode] src dst m S1 S2 D1 D2 AP. unfold bc3_block, bc3_write. cbn [fst snd].
  assert (LB : zlen (slice m src 16) = 16) by (apply zlen_slice; lia).
  match goal with |- bind ?x _ = _ => replace x with (Ok (splice m dst (alpha_write u amode (slice m src 16)))) end.
  - cbn [bind]. pose proof (alpha_write_len u amode _ LB) as AL. set (al := alpha_write u amode (slice m src 16)) in *. unfold colour_write, normalize_color.
    destruct s as [v|]; [destruct cmode|].
    + apply second_half; assumption.
    + rewrite solid_false. apply second_assign; try assumption. apply solid_len.
    + rewrite solid_true. apply second_assign; try assumption. apply solid_len.
    + apply second_half; assumption.
  - unfold alpha_write. rewrite first_half by lia. destruct u as [a|]; [destruct amode|].
    + rewrite copy8_ok by lia. reflexivity.
    + rewrite normalize_alpha_ok by (lia || discriminate). reflexivity.
    + rewrite normalize_alpha_ok by (lia || discriminate). reflexivity.
    + rewrite normalize_alpha_ok by (lia || discriminate). reflexivity.
    + rewrite copy8_ok by lia. reflexivity.
Qed.

Lemma lC38_bc3 : forall debug m inp out len amode cmode, within m inp len -> within m out len -> len mod 16 = 0 -> inp = out \/ apart len inp out ->
  exists m', bc3_normalize_blocks debug inp out len amode cmode m = Ok m' /\ only_changes [(out, len)] m m' /\
    blockwise 16 (bc3_normal amode cmode) (slice m inp len) (slice m' out len).
Proof.
  intros debug m inp out len amode cmode WI WO M16 AP. unfold bc3_normalize_blocks. replace (len mod 16 =? 0) with true by lia. rewrite debug_ok.
  rewrite same_or_apart_ok by exact AP. rewrite debug_ok.
  assert (LEN : 0 <= len) by apply WI.
  destruct (match amode, cmode with ANone, CNone => true | _, _ => false end) eqn:MD.
  - destruct amode, cmode; try discriminate MD. destruct (copy_result 16 m inp out len) as [m' [E [OC BW]]]; [lia|assumption|assumption|assumption|].
    exists m'. split; [exact E|]. split; [exact OC|]. revert BW. apply blockwise_impl; [lia|]. intros b b' L ->.
    exists (slice b 0 8), (slice b 8 8). split; [left; auto|]. split; [left; auto|]. apply halves. exact L.
  - match goal with |- context [bc3_impl debug inp len ?h ?s] => set (H := h) end.
    assert (STEP : forall m src (ps : list ((alpha_norm * color_norm) * Z)) any, valid always m 16 src ps -> map fst ps = [(amode, cmode)] ->
      exists m', (fun src s => do pixels <- decode_bc3_block (skipn (Z.to_nat src) (n_mem s)) ;;
            H src (if has_identical_alpha pixels then Some (c_a (nth 0 pixels blank)) else None) (solid_color pixels) s) src (Nst m (map snd ps) any) =
          Ok (Nst m' (map (fun d => d + 16) (map snd ps)) (any || never (slice m src 16))) /\
        writes m m' (regs ps (fun a => bc3_G a (slice m src 16)))).
    { clear m inp out len AP WI WO M16 LEN. intros m src ps any [V1 [V2 [V3 _]]] PS. destruct ps as [|[a d] [|? ?]]; [discriminate PS| |discriminate PS].
      injection PS as ->. destruct (V3 (amode, cmode, d) (or_introl eq_refl)) as [P1 [P2 P3]]. cbn [snd] in P1, P2.
      cbn [n_mem map snd]. rewrite decode3 by lia. cbn [bind]. unfold regs. cbn [map fst snd].
      assert (GL : zlen (bc3_G (amode, cmode) (slice m src 16)) = 16) by (apply bc3_G_len, zlen_slice; lia).
      exists (splice m d (bc3_G (amode, cmode) (slice m src 16))). split; [|apply splice_writes; lia].
      unfold H. cbn [n_dst n_mem n_any]. change (nth 0 [d] 0) with d. rewrite bc3_block_ok by (try assumption; exact (place_always _ _ _ _ P3)). cbn [bind].
      unfold never. rewrite orb_false_r. reflexivity. }
    pose proof (rounds_ok len 16 ltac:(lia) LEN M16) as RN.
    assert (V : valid always m len inp [((amode, cmode), out)]) by (apply valid1; (assumption || reflexivity)).
    destruct (loop_ok 16 ltac:(lia) bc3_G bc3_G_len never always _ [(amode, cmode)] STEP (rounds len 16) m inp [((amode, cmode), out)] false) as [m' [E W]];
      [rewrite <- RN; exact V|reflexivity|].
    destruct (loop_result _ 16 bc3_G always (rounds len 16) m m' inp [((amode, cmode), out)] len ltac:(lia) bc3_G_len RN V W) as [OC BW].
    exists m'. split; [|split; [exact OC|]].
    + assert (E' : bind (bc3_impl debug inp len H (Nst m [out] false)) (fun s => Ok (n_mem s)) = Ok m').
      { unfold bc3_impl. replace (len mod 16 =? 0) with true by lia. rewrite debug_ok. cbn [map snd] in E. rewrite E. reflexivity. }
      destruct amode, cmode; try discriminate MD; exact E'.
    + specialize (BW (amode, cmode) out (or_introl eq_refl)). revert BW. apply blockwise_impl; [lia|]. intros b b' L ->. apply bc3_G_normal. exact L.
Qed.

Lemma lC39_bc3 : forall debug m inp len (outs : list Z), within m inp len -> List.length outs = 12%nat -> len mod 16 = 0 ->
  (forall o, In o outs -> within m o len /\ apart len inp o) -> ForallOrdPairs (apart len) outs ->
  exists m', bc3_normalize_blocks_all_modes debug inp outs len m = Ok m' /\
    only_changes (map (fun o => (o, len)) outs) m m' /\
    forall amode cmode o, In (amode, cmode, o) (combine all_norms outs) ->
      blockwise 16 (bc3_normal amode cmode) (slice m inp len) (slice m' o len).
Proof.
  intros debug m inp len outs WI LO M16 AO PO. unfold bc3_normalize_blocks_all_modes.
  assert (LEN : 0 <= len) by apply WI.
  replace (len mod 16 =? 0) with true by lia. rewrite debug_ok.
  replace (forallb (fun o => (inp + len <=? o) || (o + len <=? inp)) outs) with true.
  2:{ symmetry. apply forallb_forall. intros o O. destruct (AO o O) as [_ A]. unfold apart in A. lia. }
  rewrite debug_ok.
  match goal with |- context [bc3_impl debug inp len ?h ?s] => set (H := h) end.
  set (ps := combine all_norms outs).
  assert (PF : map fst ps = all_norms /\ map snd ps = outs).
  { unfold ps. clear - LO. do 12 (destruct outs as [|? outs]; [discriminate LO|]). destruct outs; [|discriminate LO]. split; reflexivity. }
  destruct PF as [PF1 PF2].
  assert (STEP : forall m src (ps : list ((alpha_norm * color_norm) * Z)) any, valid never m 16 src ps -> map fst ps = all_norms ->
    exists m', (fun src s => do pixels <- decode_bc3_block (skipn (Z.to_nat src) (n_mem s)) ;;
          H src (if has_identical_alpha pixels then Some (c_a (nth 0 pixels blank)) else None) (solid_color pixels) s) src (Nst m (map snd ps) any) =
        Ok (Nst m' (map (fun d => d + 16) (map snd ps)) (any || never (slice m src 16))) /\
      writes m m' (regs ps (fun a => bc3_G a (slice m src 16)))).
  { clear - H. intros m src ps any V PS. assert (V0 := V). destruct V as [V1 [V2 _]]. cbn [n_mem]. rewrite decode3 by lia. cbn [bind].
    fold (uniform_of (picture bc3_pixel (slice m src 16))).
    unfold bc3_G. set (solid := solid_color (picture bc3_pixel (slice m src 16))). set (u := uniform_of (picture bc3_pixel (slice m src 16))).
    destruct (for_dsts_ok _ 16 (bc3_write u solid) never src (bc3_block src u solid)) with (ps := ps) (m := m) as [m' [E W]].
    - lia.
    - intros. apply bc3_write_len. assumption.
    - intros a d m' B1 B2 B3 B4 P. apply bc3_block_ok; try assumption. destruct P as [[_ F]|P]; [discriminate F|right; exact P].
    - clear. induction ps as [|x ps IH]; [apply List.FOP_nil|]. apply List.FOP_cons; [|exact IH]. apply Forall_forall. intros y _ _ F. discriminate F.
    - exact V0.
    - rewrite PS in E. exists m'. split; [|exact W]. unfold H. cbn [n_dst n_mem n_any]. rewrite E. cbn [bind]. unfold never. rewrite orb_false_r. reflexivity. }
  pose proof (rounds_ok len 16 ltac:(lia) LEN M16) as RN.
  assert (V : valid never m len inp ps).
  { destruct WI as [I1 [I2 I3]]. split; [lia|]. split; [lia|]. split.
    - intros x X. assert (O : In (snd x) outs) by (rewrite <- PF2; apply in_map; exact X). destruct (AO _ O) as [[B1 [B2 B3]] A].
      split; [lia|]. split; [lia|]. right. unfold apart in *. lia.
    - rewrite <- PF2 in PO. clear - PO. induction ps as [|x ps IH]; [apply List.FOP_nil|]. cbn [map] in PO. destruct (FOP_cons _ _ _ _ PO) as [P1 P2].
      apply List.FOP_cons; [|apply IH; exact P2]. rewrite Forall_forall in P1 |- *. intros y Y. apply P1. apply in_map. exact Y. }
  destruct (loop_ok 16 ltac:(lia) bc3_G bc3_G_len never never _ all_norms STEP (rounds len 16) m inp ps false) as [m' [E W]];
    [rewrite <- RN; exact V|exact PF1|].
  destruct (loop_result _ 16 bc3_G never (rounds len 16) m m' inp ps len ltac:(lia) bc3_G_len RN V W) as [OC BW].
  exists m'. split; [|split].
  - unfold bc3_impl. replace (len mod 16 =? 0) with true by lia. rewrite debug_ok. rewrite PF2 in E. rewrite E. reflexivity.
  - replace (map (fun o => (o, len)) outs) with (map (fun x : alpha_norm * color_norm * Z => (snd x, len)) ps); [exact OC|].
    rewrite <- PF2. rewrite map_map. reflexivity.
  - intros amode cmode o I. specialize (BW (amode, cmode) o I). revert BW. apply blockwise_impl; [lia|]. intros b b' L ->. apply bc3_G_normal. exact L.
Qed.
