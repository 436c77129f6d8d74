(** What Zstandard compresses to. *)
From Verif Require Import Base.Bytes Base.Res Model.Transform Model.Auto Model.Zstd.
Open Scope list_scope.
Open Scope Z_scope.

(** The library compresses [d] at level [lv] to [size lv d] bytes: in a new
    context, with this level, without a magic number and without the optional
    header fields, and with the room that [ZSTD_compressBound] asks for. What it
    answers when it does not fail is the length of something in memory, so less
    than half of what a [usize] can hold. *)
Definition compresses_to {L} (lib : zstd_lib L) (v : env) (size : Z -> list byte -> Z) : Prop :=
  (forall st c st1 lv n d, z_create_cctx lib st = (Some c, st1) -> z_compress_bound lib (zlen d) <= n ->
    fst (z_compress2 lib c n d
          (z_set_parameter lib c ZDictIDFlag 0 (z_set_parameter lib c ZChecksumFlag 0 (z_set_parameter lib c ZContentSizeFlag 0
            (z_set_parameter lib c ZFormat 1 (z_set_parameter lib c ZCompressionLevel lv st1)))))) = size lv d) /\
  (forall c n d st, z_is_error lib (fst (z_compress2 lib c n d st)) = false -> 2 * fst (z_compress2 lib c n d st) < usize_max v) /\
  0 < usize_max v.
(** The sum over several pieces of data. *)
Definition compressed_sum (size : list byte -> Z) (ds : list (list byte)) : Z := fold_right (fun d n => size d + n) 0 ds.
