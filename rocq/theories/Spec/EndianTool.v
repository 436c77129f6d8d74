(** Plain descriptions for the tool that the debug-endian command runs. *)
From Verif Require Import Base.Bytes Base.Res Model.Color565 Model.Kernel Model.Transform Model.Auto Model.Builders Model.Embed Model.Bundle Model.Dds
  Model.Handlers Model.EndianTest Spec.Files Spec.Dds.
From Coq Require Import String.
Open Scope list_scope.
Open Scope Z_scope.

(** A DDS file with all the bytes of a BC1 or BC2 texture, in whole blocks. *)
Definition whole_file (k : codec) (x : list byte) (i : dds_info) : Prop :=
  parse_dds false x = Ok (Some i) /\ i_format i = match k with CBc1 => DBC1 | CBc2 => DBC2 end /\
  i_data_offset i + i_data_length i <= zlen x /\ i_data_length i mod codec_block k = 0.
(** Every file operation succeeds. *)
Definition all_works (o : io) : Prop := forall p, open_ok o p = true /\ map_ok o p = true /\ create_ok o p = true.
(** Every [read] fills the buffer. *)
Definition full_reads (rd : nat -> option Z) : Prop := forall n, exists k, rd n = Some k /\ 65536 <= k.
(** A directory that holds one file. *)
Definition only_file (name : string) (x : list byte) (d : directory) : Prop :=
  d_tree d = Cli.Folder (Some [Some (name, Cli.Leaf)]) /\ on_disk (d_file d [name]) = Some x.
(** The files that are worth testing: a name that ends in ".dds" in any case of
    letters, readable, and with the complete headers of a BC1 or BC2 texture. *)
Definition worth_testing (ext : path -> option string) (o : io) (fs : files) (p : list string) : Prop :=
  exists before name stem x,
    p = before ++ [name] /\ Cli.to_lowercase name = String.append stem ".dds" /\
    fs (Cli.render p) = Some x /\ open_ok o (Cli.render p) = true /\ map_ok o (Cli.render p) = true /\
    dds_named (ext (Cli.render p)) = true /\ has_magic x = true /\ complete_headers x = true /\ (stated_format x = DBC1 \/ stated_format x = DBC2).
(** Ordered by the last part of the path. *)
Definition by_name (p q : list string) : Prop :=
  match rev p, rev q with
  | a :: _, b :: _ => String.compare a b <> Gt
  | [], _ => True
  | _, [] => False
  end.
