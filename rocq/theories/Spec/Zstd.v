(** Watching the Zstandard library, and what it promises. *)
From Verif Require Import Base.Bytes Base.Res Model.Transform Model.Auto Model.Zstd.
Open Scope list_scope.
Open Scope Z_scope.

(** What the library is asked to do. *)
Inductive zstd_event :=
| Created (cctx : option Z)
| ParameterSet (cctx : Z) (p : zstd_parameter) (value : Z)
| Compressed (cctx : Z) (destination_len : Z) (source : list byte) (answer : Z)
| Freed (cctx : Z).
(** Any library, with a log of what it was asked to do. *)
Definition watched_lib {L} (lib : zstd_lib L) : zstd_lib (L * list zstd_event) := {|
  z_compress_bound := z_compress_bound lib;
  z_create_cctx := fun st => let '(r, s) := z_create_cctx lib (fst st) in (r, (s, snd st ++ [Created r]));
  z_set_parameter := fun c p x st => (z_set_parameter lib c p x (fst st), snd st ++ [ParameterSet c p x]);
  z_compress2 := fun c n d st => let '(r, s) := z_compress2 lib c n d (fst st) in (r, (s, snd st ++ [Compressed c n d r]));
  z_free_cctx := fun c st => (z_free_cctx lib c (fst st), snd st ++ [Freed c]);
  z_is_error := z_is_error lib;
  z_get_error_code := z_get_error_code lib |}.

(** The contexts alive after these events, given those alive before; none if a
    context is used or freed that is not alive. *)
Definition is_live (x : Z) (live : list Z) : bool := existsb (Z.eqb x) live.
Fixpoint alive (live : list Z) (log : list zstd_event) : option (list Z) :=
  match log with
  | [] => Some live
  | Created None :: log => alive live log
  | Created (Some x) :: log => alive (x :: live) log
  | ParameterSet x _ _ :: log => if is_live x live then alive live log else None
  | Compressed x _ _ _ :: log => if is_live x live then alive live log else None
  | Freed x :: log => if is_live x live then alive (remove Z.eq_dec x live) log else None
  end.

(** Questions to an estimator, asked one after another. *)
Inductive question := AskMax (n : Z) | AskSize (data : list byte) (scratch : Z).
Fixpoint ask {St Er} (e : estimator St Er) (qs : list question) (st : St) : list (result Z Er) * St :=
  match qs with
  | [] => ([], st)
  | q :: qs =>
      let '(a, st) := match q with AskMax n => max_compressed_size e st n | AskSize d n => estimate_compressed_size e st d n end in
      let '(l, st) := ask e qs st in (a :: l, st)
  end.

(** What zstd.h promises: contexts can be created unless memory runs out (taken
    not to happen here), and compressing into [ZSTD_compressBound] bytes does not
    fail; the bound grows with the length. *)
Definition keeps_promise {L} (lib : zstd_lib L) : Prop :=
  (forall st, fst (z_create_cctx lib st) <> None) /\
  (forall c n d st, z_compress_bound lib (zlen d) <= n -> z_is_error lib (fst (z_compress2 lib c n d st)) = false) /\
  (forall a b, 0 <= a <= b -> z_compress_bound lib a <= z_compress_bound lib b).

(** What one measurement asks of the library: a context (it gets [c]), this
    level, the format without a magic number and none of the optional header
    fields, then one compression (which answers [r]), and the context is freed. *)
Definition session (lv : Z) (d : list byte) (n : Z) (c : option Z) (r : Z) : list zstd_event :=
  match c with
  | None => [Created None]
  | Some x => [Created (Some x); ParameterSet x ZCompressionLevel lv; ParameterSet x ZFormat 1; ParameterSet x ZContentSizeFlag 0;
               ParameterSet x ZChecksumFlag 0; ParameterSet x ZDictIDFlag 0; Compressed x n d r; Freed x]
  end.

(** The memory that the library wants for compressing [n] bytes can be had. *)
Definition can_allocate {L} (lib : zstd_lib L) (v : env) (n : Z) : Prop := n = 0 \/ alloc_ok v (z_compress_bound lib n) = true.
