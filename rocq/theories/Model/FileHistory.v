(** What a program that keeps a DDS file in memory can do to it: transform it and
    restore it, on one computer after another, in any order.

    Simplification: the program replaces the file by the first [input.len()] bytes
    of the output when the call reports success, and keeps the file otherwise (an
    error or a panic). The calls are those of the DDS handler (Model/Dds.v,
    Model/BeFiles.v).

    src/extensions/file-formats/dxt-lossless-transform-dds/src/handler/file_format_handler.rs:15-139 *)
From Verif Require Import Base.Bytes Base.Res Model.Color565 Model.Kernel Model.Transform Model.Auto Model.Builders Model.Embed Model.Bundle Model.Dds
  Model.BigEndian Model.BeTransform Model.BeFiles.
From Coq Require Import String.
Open Scope list_scope.

(** A little-endian or a big-endian computer. *)
Inductive computer := LittleOne (c : cfg) (v : env) | BigOne (debug : bool) (junk : byte) (v : env).

(** src/extensions/file-formats/dxt-lossless-transform-dds/src/handler/file_format_handler.rs:15-78 *)
Definition transform_on {St Er} (p : computer) (show : Er -> string) (t : bundle St Er) (f out : list byte) (st : St) :=
  match p with
  | LittleOne c v => dds_transform_bundle show c v t f out st
  | BigOne d j v => be_dds_transform_bundle show (big_endian_cpu d j) v t f out st
  end.
(** src/extensions/file-formats/dxt-lossless-transform-dds/src/handler/file_format_handler.rs:80-139 *)
Definition restore_on (p : computer) (f out : list byte) :=
  match p with
  | LittleOne c v => dds_untransform c v f out
  | BigOne d j v => be_dds_untransform (big_endian_cpu d j) v f out
  end.

(** An action: transform with any bundle, whose estimator has any state, or restore; [out] is the output buffer before. *)
Inductive action :=
| Transforming (St Er : Type) (show : Er -> string) (t : bundle St Er) (st : St) (out : list byte)
| Restoring (out : list byte).

(** src/extensions/file-formats/dxt-lossless-transform-dds/src/handler/file_format_handler.rs:15-139 *)
Definition act (p : computer) (a : action) (f : list byte) : list byte :=
  match a with
  | Transforming _ _ show t st out =>
      match transform_on p show t f out st with
      | Ok (ROk _, y, _) => firstn (List.length f) y
      | _ => f
      end
  | Restoring out =>
      match restore_on p f out with
      | Ok (ROk _, y) => firstn (List.length f) y
      | _ => f
      end
  end.
(** (The same lines.) *)
Fixpoint acts (l : list (computer * action)) (f : list byte) : list byte :=
  match l with
  | [] => f
  | (p, a) :: l => acts l (act p a f)
  end.
