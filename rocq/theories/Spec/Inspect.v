(** What the debug functions are asked about. *)
From Verif Require Import Base.Bytes Base.Res Model.Color565 Model.Kernel Model.Transform Model.Auto Model.Embed Model.Bundle Model.Dds Model.Handlers Model.Cli
  Model.Inspect.
From Coq Require Import Ascii String.
Open Scope list_scope.
Open Scope Z_scope.

(** The first handler of a list that accepts a file. *)
Definition first_to_accept (data : list byte) (ext : option string) (hs : list inspector) (h : inspector) : Prop :=
  exists earlier later, hs = earlier ++ h :: later /\ Forall (fun g => n_can_handle g data ext = Ok false) earlier /\ n_can_handle h data ext = Ok true.

(** Bytes of one block of a block-compressed format. *)
Definition block_bytes (f : dds_format) : option Z :=
  match f with DBC1 | DBC4 => Some 8 | DBC2 | DBC3 | DBC5 | DBC6H | DBC7 => Some 16 | _ => None end.
(** The formats the round trip commands test: debug-bc1, debug-bc2, debug-bc3. *)
Definition tested_format (k : Z) : dds_format := if k =? 1 then DBC1 else if k =? 2 then DBC2 else DBC3.
(** A file the command can open, with all the bytes of its texture, not of 4 GiB
    or more. *)
Definition testable (debug : bool) (v : env) (o : io) (ext : option string) (p : path) (fs : files) (f : dds_format) : Prop :=
  open_ok o p = true /\ map_ok o p = true /\ (ext = None \/ ext = Some "dds"%string) /\
  exists data i, fs p = Some data /\ parse_dds debug data = Ok (Some i) /\ i_format i = f /\
    i_data_offset i + i_data_length i <= zlen data < 2 ^ 32 /\ alloc_ok v (i_data_length i) = true /\ (debug = true -> 0 < i_data_length i).
