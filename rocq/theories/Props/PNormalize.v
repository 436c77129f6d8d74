(** C37, C38, C39: block normalisation. Spec/Pixels.v says what the pixels of a block are, Spec/Normalize.v what its normal form is. *)
From Verif Require Import Base.Bytes Base.Res Model.Color565 Model.Decode Model.Normalize Spec.Pixels Spec.Normalize
  Proofs.NormDerived.

(** C37: normalising BC1 blocks, into another buffer or in place, changes no pixel of any block. Each block is
    rewritten exactly if it is fully transparent or of one opaque RGB565 colour. Nothing else in memory changes. *)
Theorem C37_bc1_normalize : forall debug m inp out len mode, within m inp len -> within m out len -> len mod 8 = 0 -> inp = out \/ apart len inp out ->
  exists m', bc1_normalize_blocks debug inp out len mode m = Ok m' /\ only_changes [(out, len)] m m' /\
    blockwise 8 (fun b b' => picture bc1_pixel b' = picture bc1_pixel b) (slice m inp len) (slice m' out len) /\
    blockwise 8 (bc1_normal mode) (slice m inp len) (slice m' out len).
Proof. exact lC37. Qed.
Print Assumptions C37_bc1_normalize.

(** C37: the same for blocks whose endpoints and indices are stored apart. *)
Theorem C37_bc1_normalize_split : forall m colors indices n mode (parts := [(colors, 4); (indices, 4)]), parts_ok m parts (Z.of_nat n) ->
  exists m', bc1_normalize_split_blocks_in_place colors indices n mode m = Ok m' /\
    only_changes [(colors, 4 * Z.of_nat n); (indices, 4 * Z.of_nat n)] m m' /\
    forall k, 0 <= k < Z.of_nat n ->
      picture bc1_pixel (gather m' parts k) = picture bc1_pixel (gather m parts k) /\ bc1_normal mode (gather m parts k) (gather m' parts k).
Proof. exact lC37_split_picture. Qed.
Print Assumptions C37_bc1_normalize_split.

(** C37: blocks with the same transparent or one-colour picture get the same bytes; the result is determined by the block; a second pass changes nothing. *)
Theorem C37_bc1_canonical : forall mode b c b' c', mode <> CNone -> bc1_normal mode b b' -> bc1_normal mode c c' ->
  (picture bc1_pixel b = picture bc1_pixel c -> bc1_transparent b \/ (exists v, bc1_solid b v) -> b' = c') /\
  (b = c -> b' = c') /\ (b' = c -> c' = b').
Proof. exact lC37_canonical. Qed.
Print Assumptions C37_bc1_canonical.

(** Three blocks normalised into another buffer: all pixels of index 1, fully transparent, not normalisable. *)
Example C37_case : exists m', bc1_normalize_blocks true 0 24 24 ReplicateColor
    ([x00; x00; x1f; x00; x55; x55; x55; x55] ++ [x00; x00; x01; x00; xff; xff; xff; xff] ++ [x00; x00; x01; x00; xe4; xff; xff; xff] ++ repeat x00 24) = Ok m' /\
  slice m' 24 24 = [x1f; x00; x1f; x00; x00; x00; x00; x00] ++ repeat xff 8 ++ [x00; x00; x01; x00; xe4; xff; xff; xff].
Proof. eexists. split; vm_compute; reflexivity. Qed.

(** C38: normalising BC2 and BC3 blocks changes no pixel. *)
Theorem C38_bc2_bc3_normalize : forall debug m inp out len, within m inp len -> within m out len -> len mod 16 = 0 -> inp = out \/ apart len inp out ->
  (forall mode, exists m', bc2_normalize_blocks debug inp out len mode m = Ok m' /\ only_changes [(out, len)] m m' /\
    blockwise 16 (fun b b' => picture bc2_pixel b' = picture bc2_pixel b) (slice m inp len) (slice m' out len) /\
    blockwise 16 (bc2_normal mode) (slice m inp len) (slice m' out len)) /\
  (forall amode cmode, exists m', bc3_normalize_blocks debug inp out len amode cmode m = Ok m' /\ only_changes [(out, len)] m m' /\
    blockwise 16 (fun b b' => picture bc3_pixel b' = picture bc3_pixel b) (slice m inp len) (slice m' out len) /\
    blockwise 16 (bc3_normal amode cmode) (slice m inp len) (slice m' out len)).
Proof. exact lC38. Qed.
Print Assumptions C38_bc2_bc3_normalize.

(** C38: the same for blocks stored in parts. For BC2 the alpha part is not even written. *)
Theorem C38_bc2_normalize_split : forall m alpha colors indices n mode (parts := [(alpha, 8); (colors, 4); (indices, 4)]), parts_ok m parts (Z.of_nat n) ->
  exists m', bc2_normalize_split_blocks_in_place alpha colors indices n mode m = Ok m' /\
    only_changes [(colors, 4 * Z.of_nat n); (indices, 4 * Z.of_nat n)] m m' /\
    forall k, 0 <= k < Z.of_nat n ->
      picture bc2_pixel (gather m' parts k) = picture bc2_pixel (gather m parts k) /\ bc2_normal mode (gather m parts k) (gather m' parts k).
Proof. exact lC38_split_picture_bc2. Qed.
Print Assumptions C38_bc2_normalize_split.
Theorem C38_bc3_normalize_split : forall m ae ai ce ci n amode cmode (parts := [(ae, 2); (ai, 6); (ce, 4); (ci, 4)]), parts_ok m parts (Z.of_nat n) ->
  exists m', bc3_normalize_split_blocks_in_place ae ai ce ci n amode cmode m = Ok m' /\
    only_changes [(ae, 2 * Z.of_nat n); (ai, 6 * Z.of_nat n); (ce, 4 * Z.of_nat n); (ci, 4 * Z.of_nat n)] m m' /\
    forall k, 0 <= k < Z.of_nat n ->
      picture bc3_pixel (gather m' parts k) = picture bc3_pixel (gather m parts k) /\ bc3_normal amode cmode (gather m parts k) (gather m' parts k).
Proof. exact lC38_split_picture_bc3. Qed.
Print Assumptions C38_bc3_normalize_split.

(** C38: one-colour pictures get the same colour bytes, pictures of one alpha the same alpha bytes; a second pass changes nothing. *)
Theorem C38_bc2_canonical : forall mode b c b' c', zlen b = 16 -> zlen c = 16 -> mode <> CNone -> bc2_normal mode b b' -> bc2_normal mode c c' ->
  (picture bc2_pixel b = picture bc2_pixel c -> (exists v, one_colour bc2_pixel b v) -> slice b' 8 8 = slice c' 8 8) /\
  (b = c -> b' = c') /\ (b' = c -> c' = b').
Proof. exact lC38_canonical_bc2. Qed.
Print Assumptions C38_bc2_canonical.
Theorem C38_bc3_canonical : forall amode cmode b c b' c', zlen b = 16 -> zlen c = 16 -> bc3_normal amode cmode b b' -> bc3_normal amode cmode c c' ->
  (cmode <> CNone -> picture bc3_pixel b = picture bc3_pixel c -> (exists v, one_colour bc3_pixel b v) -> slice b' 8 8 = slice c' 8 8) /\
  (amode <> ANone -> picture bc3_pixel b = picture bc3_pixel c -> (exists a, one_alpha b a) -> slice b' 0 8 = slice c' 0 8) /\
  (b = c -> b' = c') /\ (b' = c -> c' = b').
Proof. exact lC38_canonical_bc3. Qed.
Print Assumptions C38_bc3_canonical.

(** In place; alpha 255 written as a palette constant, and a colour of index 1. *)
Example C38_case : bc3_normalize_blocks true 0 0 16 OpaqueFillAll Color0Only
    [x01; xff; x49; x92; x24; x49; x92; x24; x00; x00; x1f; x00; x55; x55; x55; x55] =
  Ok (repeat xff 8 ++ [x1f; x00; x00; x00; x00; x00; x00; x00]) /\
  (exists m', bc2_normalize_split_blocks_in_place 0 8 12 1 ReplicateColor
    [x01; x23; x45; x67; x89; xab; xcd; xef; x00; x00; x1f; x00; x55; x55; x55; x55] = Ok m' /\
    m' = [x01; x23; x45; x67; x89; xab; xcd; xef; x1f; x00; x1f; x00; x00; x00; x00; x00]).
Proof. split; [vm_compute; reflexivity|]. eexists. split; vm_compute; reflexivity. Qed.

(** C39, BC1: the buffers of the two rewriting modes (either may be the input itself) get what normalising for that mode gives.
    The flag tells whether some block could be normalised. The buffer of mode None gets the input with its transparent blocks
    rewritten: see the next theorem. *)
Theorem C39_bc1_all_modes_partial : forall debug m inp len o0 o1 o2, within m inp len -> within m o0 len -> within m o1 len -> within m o2 len -> len mod 8 = 0 ->
  apart len inp o0 -> (inp = o1 \/ apart len inp o1) -> (inp = o2 \/ apart len inp o2) ->
  apart len o0 o1 -> apart len o0 o2 -> apart len o1 o2 ->
  exists any m', bc1_normalize_blocks_all_modes debug inp [o0; o1; o2] len m = Ok (any, m') /\
    only_changes [(o0, len); (o1, len); (o2, len)] m m' /\
    (forall mode o, In (mode, o) [(Color0Only, o1); (ReplicateColor, o2)] ->
      exists m1, bc1_normalize_blocks debug inp o len mode m = Ok m1 /\ slice m' o len = slice m1 o len) /\
    blockwise 8 bc1_kept (slice m inp len) (slice m' o0 len) /\
    (any = true <-> exists k, 0 <= k /\ 8 * (k + 1) <= len /\
       (bc1_transparent (slice m (inp + 8 * k) 8) \/ exists v, bc1_solid (slice m (inp + 8 * k) 8) v)).
Proof. exact lC39_bc1_same. Qed.
Print Assumptions C39_bc1_all_modes_partial.

(** C39 fails for BC1 and mode None: a transparent block is rewritten although mode None alone keeps it. *)
Theorem C39_bc1_none_refuted : exists m inp len o0 o1 o2, within m inp len /\ within m o0 len /\ within m o1 len /\ within m o2 len /\ len mod 8 = 0 /\
  apart len inp o0 /\ apart len inp o1 /\ apart len inp o2 /\ apart len o0 o1 /\ apart len o0 o2 /\ apart len o1 o2 /\
  forall debug, exists any m' m1,
    bc1_normalize_blocks_all_modes debug inp [o0; o1; o2] len m = Ok (any, m') /\
    bc1_normalize_blocks debug inp o0 len CNone m = Ok m1 /\ slice m' o0 len <> slice m1 o0 len.
Proof. exact lC39_bc1_none_refuted. Qed.
Print Assumptions C39_bc1_none_refuted.

(** The documentation allows the buffer of mode None to be the input. Then even the picture in it can change. *)
Theorem C39_bc1_in_place_refuted : exists m len o1 o2, within m 0 len /\ within m o1 len /\ within m o2 len /\ len mod 8 = 0 /\
  apart len 0 o1 /\ apart len 0 o2 /\ apart len o1 o2 /\
  forall debug, exists any m', bc1_normalize_blocks_all_modes debug 0 [0; o1; o2] len m = Ok (any, m') /\
    picture bc1_pixel (slice m' 0 8) <> picture bc1_pixel (slice m 0 8).
Proof. exact lC39_bc1_in_place_refuted. Qed.
Print Assumptions C39_bc1_in_place_refuted.

(** C39, BC2: every buffer, any of which may be the input itself. *)
Theorem C39_bc2_all_modes : forall debug m inp len o0 o1 o2, within m inp len -> within m o0 len -> within m o1 len -> within m o2 len -> len mod 16 = 0 ->
  (inp = o0 \/ apart len inp o0) -> (inp = o1 \/ apart len inp o1) -> (inp = o2 \/ apart len inp o2) ->
  apart len o0 o1 -> apart len o0 o2 -> apart len o1 o2 ->
  exists m', bc2_normalize_blocks_all_modes debug inp [o0; o1; o2] len m = Ok m' /\
    only_changes [(o0, len); (o1, len); (o2, len)] m m' /\
    forall mode o, In (mode, o) [(CNone, o0); (Color0Only, o1); (ReplicateColor, o2)] ->
      exists m1, bc2_normalize_blocks debug inp o len mode m = Ok m1 /\ slice m' o len = slice m1 o len.
Proof. exact lC39_bc2_same. Qed.
Print Assumptions C39_bc2_all_modes.

(** C39, BC3: all twelve buffers, apart from the input: for each way to treat the
    alpha values, one buffer per way to treat the colours. *)
Definition bc3_modes : list (alpha_norm * color_norm) :=
  [(ANone, CNone); (ANone, Color0Only); (ANone, ReplicateColor);
   (UniformAlphaZeroIndices, CNone); (UniformAlphaZeroIndices, Color0Only); (UniformAlphaZeroIndices, ReplicateColor);
   (OpaqueFillAll, CNone); (OpaqueFillAll, Color0Only); (OpaqueFillAll, ReplicateColor);
   (OpaqueZeroAlphaMaxIndices, CNone); (OpaqueZeroAlphaMaxIndices, Color0Only); (OpaqueZeroAlphaMaxIndices, ReplicateColor)].
Theorem C39_bc3_all_modes : forall debug m inp len (outs : list Z), within m inp len -> List.length outs = 12%nat -> len mod 16 = 0 ->
  (forall o, In o outs -> within m o len /\ apart len inp o) -> ForallOrdPairs (apart len) outs ->
  exists m', bc3_normalize_blocks_all_modes debug inp outs len m = Ok m' /\
    only_changes (map (fun o => (o, len)) outs) m m' /\
    forall amode cmode o, In (amode, cmode, o) (combine bc3_modes outs) ->
      exists m1, bc3_normalize_blocks debug inp o len amode cmode m = Ok m1 /\ slice m' o len = slice m1 o len.
Proof. exact lC39_bc3_same. Qed.
Print Assumptions C39_bc3_all_modes.

(** The documentation says the BC3 input can match any output. Debug builds then panic; release builds write wrong bytes. *)
Theorem C39_bc3_in_place_refuted : exists m len (outs : list Z) i amode cmode o, within m 0 len /\ len mod 16 = 0 /\ List.length outs = 12%nat /\
  (forall o, In o outs -> within m o len /\ (0 = o \/ apart len 0 o)) /\ ForallOrdPairs (apart len) outs /\
  nth i outs 1 = 0 /\ In (amode, cmode, o) (combine bc3_modes outs) /\
  (exists w, bc3_normalize_blocks_all_modes true 0 outs len m = Panic w) /\
  exists m' m1, bc3_normalize_blocks_all_modes false 0 outs len m = Ok m' /\
    bc3_normalize_blocks false 0 o len amode cmode m = Ok m1 /\ slice m' o len <> slice m1 o len.
Proof. exact lC39_bc3_in_place_refuted. Qed.
Print Assumptions C39_bc3_in_place_refuted.

(** BC1, the input being the buffer of the last mode; the buffer of mode None shows the rewritten transparent block. *)
Example C39_case : exists m', bc1_normalize_blocks_all_modes true 0 [16; 32; 0] 16
    ([x00; x00; x1f; x00; x55; x55; x55; x55] ++ [x00; x00; x01; x00; xff; xff; xff; xff] ++ repeat x00 32) = Ok (true, m') /\
  slice m' 16 16 = [x00; x00; x1f; x00; x55; x55; x55; x55] ++ repeat xff 8 /\
  slice m' 32 16 = [x1f; x00; x00; x00; x00; x00; x00; x00] ++ repeat xff 8 /\
  slice m' 0 16 = [x1f; x00; x1f; x00; x00; x00; x00; x00] ++ repeat xff 8.
Proof. eexists. split; [vm_compute; reflexivity|]. split; [vm_compute; reflexivity|]. split; vm_compute; reflexivity. Qed.
