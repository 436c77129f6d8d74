(** The order in which the DDS handler writes its output, for runs that are
    stopped in the middle (a killed process; the output is a mapped file, so what
    was written stays). *)
From Verif Require Import Base.Bytes Base.Res Model.Color565 Model.Kernel Model.Transform Model.Auto Model.Builders Model.Embed Model.Bundle Model.Dds.
Open Scope Z_scope.

(** One write of the handler: a copy of some bytes, the texture written by the
    codec, or a single store.
    src/extensions/file-formats/dxt-lossless-transform-dds/src/handler/file_format_handler.rs:51-74 *)
Inductive write :=
| Copying (start : Z) (bytes : list byte)
| Computing (start : Z) (bytes : list byte)
| Storing (start : Z) (bytes : list byte).
Definition written (w : write) (out : list byte) : list byte :=
  match w with Copying a d | Computing a d | Storing a d => splice out a d end.

Section Writes.
Context {St Er : Type}.
Variables (show : Er -> string) (c : cfg) (v : env).

(** src/extensions/file-formats/dxt-lossless-transform-dds/src/handler/file_format_handler.rs:16-78: the writes of [dds_transform_bundle]
    in their order. Simplification: the header is one store of four bytes
    (src/api/dxt-lossless-transform-file-formats-api/src/embed/mod.rs:152-161: [write_to_ptr] writes one u32), so
    a stopped process leaves all of it or nothing. *)
Definition dds_transform_writes (t : bundle St Er) (input output : list byte) (st : St) : res (list write) :=
  if zlen output <? zlen input then Ok []
  else
    do info <- parse_dds (c_debug c) input ;;
    match info with
    | None => Ok []
    | Some info =>
        let data_offset := i_data_offset info in
        let data_length := i_data_length info in
        do total_required <- usize_add (c_debug c) v data_offset data_length ;;
        if zlen input <? total_required then Ok []
        else
          do head <- range input 0 data_offset ;;
          do output <- copy_range output 0 data_offset head ;;
          match dds_format_to_transform_format (i_format info) false with
          | RErr e => Ok [Copying 0 head]
          | ROk transform_format =>
              do texture_end <- usize_add (c_debug c) v data_offset data_length ;;
              do texture <- range input data_offset texture_end ;;
              do target <- range output data_offset texture_end ;;
              do r <- dispatch_transform show c v t transform_format texture target st ;;
              match r with
              | (RErr e, target, st) => Ok [Copying 0 head; Computing data_offset target]
              | (ROk header, target, st) =>
                  let output := splice output data_offset target in
                  do rest <-
                    (if texture_end <? zlen input
                     then do leftover <- range input texture_end (zlen input) ;;
                          do _ <- copy_range output texture_end (zlen output) leftover ;;
                          Ok [Copying texture_end leftover]
                     else Ok []) ;;
                  Ok (Copying 0 head :: Computing data_offset target :: rest ++ [Storing 0 (u32_bytes header)])
              end
          end
    end.

(** src/extensions/file-formats/dxt-lossless-transform-dds/src/handler/file_format_handler.rs:80-139: those of [dds_untransform] *)
Definition dds_untransform_writes (input output : list byte) : res (list write) :=
  if zlen input <? 4 then Ok []
  else if zlen output <? zlen input then Ok []
  else
    let header := read_from_ptr input 0 in
    do info <- parse_dds_ignore_magic (c_debug c) input ;;
    match info with
    | None => Ok []
    | Some info =>
        let data_offset := i_data_offset info in
        let data_length := i_data_length info in
        do total_required <- usize_add (c_debug c) v data_offset data_length ;;
        if zlen input <? total_required then Ok []
        else
          do output <- copy_range output 0 4 (u32_bytes DDS_MAGIC) ;;
          do head <- range input 4 data_offset ;;
          do output <- copy_range output 4 data_offset head ;;
          do texture_end <- usize_add (c_debug c) v data_offset data_length ;;
          do texture <- range input data_offset texture_end ;;
          do target <- range output data_offset texture_end ;;
          do r <- dispatch_untransform c header texture target ;;
          match r with
          | (RErr e, target) => Ok [Copying 0 (u32_bytes DDS_MAGIC); Copying 4 head; Computing data_offset target]
          | (ROk _, target) =>
              let output := splice output data_offset target in
              do rest <-
                (if texture_end <? zlen input
                 then do leftover <- range input texture_end (zlen input) ;;
                      do _ <- copy_range output texture_end (zlen output) leftover ;;
                      Ok [Copying texture_end leftover]
                 else Ok []) ;;
              Ok (Copying 0 (u32_bytes DDS_MAGIC) :: Copying 4 head :: Computing data_offset target :: rest)
          end
    end.
End Writes.
