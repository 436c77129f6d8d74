(** What the report of the analyze-formats command should say. *)
From Verif Require Import Base.Bytes Base.Res Model.Embed Model.Dds Model.Handlers Model.Cli Spec.Dds.
From Coq Require Import String.
Open Scope list_scope.
Open Scope Z_scope.

(** The lines, in the order they are printed: what a file can be, and its name. *)
Definition kinds : list (option transform_format * string) :=
  [(None, "Unknown"); (Some FBc1, "Bc1"); (Some FBc2, "Bc2"); (Some FBc3, "Bc3"); (Some FBc7, "Bc7"); (Some FBc6H, "Bc6H");
   (Some FRgba8888, "Rgba8888"); (Some FBgra8888, "Bgra8888"); (Some FBgr888, "Bgr888"); (Some FBc4, "Bc4"); (Some FBc5, "Bc5")]%string.
Definition format_eq_dec : forall a b : option transform_format, {a = b} + {a <> b}.
Proof. decide equality. decide equality. Defined.

Section Report.
Variable detected : components -> option transform_format.
Variable size : components -> Z.
Definition sum_sizes (l : list components) : Z := fold_right Z.add 0 (map size l).
(** The files of one kind. *)
Definition files_of (f : option transform_format) (entries : list components) : list components :=
  filter (fun p => if format_eq_dec (detected p) f then true else false) entries.
(** A line for each kind of which there are files: how many, and their size. *)
Definition expected_lines (entries : list components) : list (string * Z * Z) :=
  flat_map (fun k =>
    match files_of (fst k) entries with
    | [] => []
    | l => [(snd k, zlen l, sum_sizes l)]
    end) kinds.
End Report.

(** What a file of the extension [ext] (in lower case) and these contents is. *)
Definition stated_kind (ext : option string) (data : list byte) : option transform_format :=
  match ext with
  | None | Some "dds"%string => if has_magic data && complete_headers data then block_format (stated_format data) else None
  | Some _ => None
  end.
(** What a file on disk is: what its contents state, if they can be read. *)
Definition kind_on_disk (extension : components -> option string) (o : io) (fs : files) (p : components) : option transform_format :=
  match fs (render p) with
  | Some data => if open_ok o (render p) && map_ok o (render p) then stated_kind (extension p) data else None
  | None => None
  end.
