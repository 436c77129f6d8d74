(** C96: normalising a texture in place again and again, in any modes and builds,
    does what one call with the last mode that is not None does, and keeps the
    picture. For BC3 the modes for alpha and for colours count separately. *)
From Verif Require Import Base.Bytes Base.Res Model.Color565 Model.Decode Model.Normalize Spec.Pixels Spec.Normalize Spec.Passes Proofs.Passes.
Open Scope Z_scope.

Theorem C96_bc1 : forall debug m p len (calls : list (bool * color_norm)), within m p len -> len mod 8 = 0 ->
  exists m', passes (fun d mode => bc1_normalize_blocks d p p len mode) calls m = Ok m' /\
    bc1_normalize_blocks debug p p len (last_colour_mode (map snd calls)) m = Ok m' /\ only_changes [(p, len)] m m' /\
    blockwise 8 (fun b b' => picture bc1_pixel b' = picture bc1_pixel b) (slice m p len) (slice m' p len).
Proof. exact bc1_passes. Qed.
Print Assumptions C96_bc1.
Theorem C96_bc2 : forall debug m p len (calls : list (bool * color_norm)), within m p len -> len mod 16 = 0 ->
  exists m', passes (fun d mode => bc2_normalize_blocks d p p len mode) calls m = Ok m' /\
    bc2_normalize_blocks debug p p len (last_colour_mode (map snd calls)) m = Ok m' /\ only_changes [(p, len)] m m' /\
    blockwise 16 (fun b b' => picture bc2_pixel b' = picture bc2_pixel b) (slice m p len) (slice m' p len).
Proof. exact bc2_passes. Qed.
Print Assumptions C96_bc2.
Theorem C96_bc3 : forall debug m p len (calls : list (bool * (alpha_norm * color_norm))), within m p len -> len mod 16 = 0 ->
  exists m', passes (fun d mode => bc3_normalize_blocks d p p len (fst mode) (snd mode)) calls m = Ok m' /\
    bc3_normalize_blocks debug p p len (last_alpha_mode (map (fun c => fst (snd c)) calls)) (last_colour_mode (map (fun c => snd (snd c)) calls)) m = Ok m' /\
    only_changes [(p, len)] m m' /\ blockwise 16 (fun b b' => picture bc3_pixel b' = picture bc3_pixel b) (slice m p len) (slice m' p len).
Proof. exact bc3_passes. Qed.
Print Assumptions C96_bc3.

(** The same for blocks whose parts are stored apart. *)
Theorem C96_bc1_parts : forall m colors indices n (calls : list (bool * color_norm)) (parts := [(colors, 4); (indices, 4)]), parts_ok m parts (Z.of_nat n) ->
  exists m', passes (fun _ mode => bc1_normalize_split_blocks_in_place colors indices n mode) calls m = Ok m' /\
    bc1_normalize_split_blocks_in_place colors indices n (last_colour_mode (map snd calls)) m = Ok m' /\
    forall k, 0 <= k < Z.of_nat n -> picture bc1_pixel (gather m' parts k) = picture bc1_pixel (gather m parts k).
Proof. exact bc1_split_passes. Qed.
Print Assumptions C96_bc1_parts.
Theorem C96_bc2_parts : forall m alpha colors indices n (calls : list (bool * color_norm)) (parts := [(alpha, 8); (colors, 4); (indices, 4)]), parts_ok m parts (Z.of_nat n) ->
  exists m', passes (fun _ mode => bc2_normalize_split_blocks_in_place alpha colors indices n mode) calls m = Ok m' /\
    bc2_normalize_split_blocks_in_place alpha colors indices n (last_colour_mode (map snd calls)) m = Ok m' /\
    forall k, 0 <= k < Z.of_nat n -> picture bc2_pixel (gather m' parts k) = picture bc2_pixel (gather m parts k).
Proof. exact bc2_split_passes. Qed.
Print Assumptions C96_bc2_parts.
Theorem C96_bc3_parts : forall m ae ai ce ci n (calls : list (bool * (alpha_norm * color_norm))) (parts := [(ae, 2); (ai, 6); (ce, 4); (ci, 4)]), parts_ok m parts (Z.of_nat n) ->
  exists m', passes (fun _ mode => bc3_normalize_split_blocks_in_place ae ai ce ci n (fst mode) (snd mode)) calls m = Ok m' /\
    bc3_normalize_split_blocks_in_place ae ai ce ci n (last_alpha_mode (map (fun c => fst (snd c)) calls)) (last_colour_mode (map (fun c => snd (snd c)) calls)) m = Ok m' /\
    forall k, 0 <= k < Z.of_nat n -> picture bc3_pixel (gather m' parts k) = picture bc3_pixel (gather m parts k).
Proof. exact bc3_split_passes. Qed.
Print Assumptions C96_bc3_parts.

(** A BC1 block of one colour and one that cannot be normalised; three passes. *)
Example C96_bc1_met : let m := [x00; x00; x1f; x00; x55; x55; x55; x55] ++ [x00; x00; x01; x00; xe4; xff; xff; xff] in
  within m 0 16 /\ 16 mod 8 = 0 /\
  passes (fun d mode => bc1_normalize_blocks d 0 0 16 mode) [(true, ReplicateColor); (false, Color0Only); (true, CNone)] m =
    Ok ([x1f; x00; x00; x00; x00; x00; x00; x00] ++ [x00; x00; x01; x00; xe4; xff; xff; xff]) /\
  last_colour_mode (map snd [(true, ReplicateColor); (false, Color0Only); (true, CNone)]) = Color0Only.
Proof. cbv zeta. split; [vm_compute; intuition discriminate|]. split; [reflexivity|]. split; vm_compute; reflexivity. Qed.
(** A BC3 block: the last mode for alpha is from the second pass, that for colours from the first. *)
Example C96_bc3_met : let m := [x01; xff; x49; x92; x24; x49; x92; x24; x00; x00; x1f; x00; x55; x55; x55; x55] in
  let calls := [(true, (UniformAlphaZeroIndices, Color0Only)); (false, (OpaqueFillAll, CNone))] in within m 0 16 /\
  passes (fun d mode => bc3_normalize_blocks d 0 0 16 (fst mode) (snd mode)) calls m = Ok (repeat xff 8 ++ [x1f; x00; x00; x00; x00; x00; x00; x00]) /\
  parts_ok m [(0, 2); (2, 6); (8, 4); (12, 4)] (Z.of_nat 1).
Proof.
  cbv zeta. split; [vm_compute; intuition discriminate|]. split; [vm_compute; reflexivity|]. split.
  - intros p w [I|[I|[I|[I|[]]]]]; injection I as <- <-; vm_compute; intuition discriminate.
  - repeat (apply FOP_cons; [repeat (apply Forall_cons; [cbn [fst snd]; left; vm_compute; intuition discriminate|]); apply Forall_nil|]). apply FOP_nil.
Qed.
