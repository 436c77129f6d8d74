(** What the Zstandard library promises about compressing and decompressing, and
    histories of the compressed data cache. *)
From Verif Require Import Base.Bytes Base.Res Model.Transform Model.Handlers Model.Inspect Model.Zstd Model.Caches.
Open Scope list_scope.
Open Scope Z_scope.

(** ** The library *)

(** The values of the parameters of a compression context. *)
Definition parameters : Type := zstd_parameter -> Z.
Definition parameter_eqb (a b : zstd_parameter) : bool :=
  match a, b with
  | ZCompressionLevel, ZCompressionLevel | ZFormat, ZFormat | ZContentSizeFlag, ZContentSizeFlag | ZChecksumFlag, ZChecksumFlag
  | ZDictIDFlag, ZDictIDFlag => true
  | _, _ => false
  end.
(** [frame ps d]: the frame made from [d] with the parameters [ps]. The contexts
    have parameters, which can be set. Compressing gives the frame for the
    parameters of the context, or an error. Decompressing a frame gives the bytes
    back if the context expects the format of the frame and there is enough
    room. [cctx] and [dctx] are the parameters of contexts (a decompression
    context has one, the format; at first it is 0, the format with a magic number). *)
Definition behaves {L} (y : zstd_codec L) (frame : parameters -> list byte -> list byte) : Prop :=
  exists (cctx : L -> Z -> option parameters) (dctx : L -> Z -> option Z) (first : parameters),
    (forall st c st', y_create_cctx y st = (Some c, st') -> cctx st' c = Some first) /\
    (forall st c p x ps, cctx st c = Some ps -> cctx (y_set_parameter y c p x st) c = Some (fun q => if parameter_eqb q p then x else ps q)) /\
    (forall st c ps n d, cctx st c = Some ps ->
       y_is_error y (fst (fst (y_compress2 y c n d st))) = true \/ fst (y_compress2 y c n d st) = (zlen (frame ps d), frame ps d)) /\
    (forall st, exists c st', y_create_dctx y st = (Some c, st') /\ dctx st' c = Some 0) /\
    (forall st c x f, dctx st c = Some f -> dctx (y_set_d_parameter y c ZDFormat x st) c = Some x) /\
    (forall st c ps n d, dctx st c = Some (ps ZFormat) -> zlen d <= n -> fst (y_decompress y c n (frame ps d) st) = (zlen d, d)) /\
    (forall d : list byte, y_is_error y (zlen d) = false).

(** What the library is asked to do. *)
Inductive codec_event :=
| CreatedC (c : option Z) | SetC (c : Z) (p : zstd_parameter) (x : Z) | UsedC (c : Z) | FreedC (c : Z)
| CreatedD (c : option Z) | SetD (c : Z) (x : Z) | UsedD (c : Z) | FreedD (c : Z).
(** Any library, with a log of what it was asked to do. *)
Definition watched_codec {L} (y : zstd_codec L) : zstd_codec (L * list codec_event) := {|
  y_compress_bound := y_compress_bound y;
  y_create_cctx := fun st => let '(r, s) := y_create_cctx y (fst st) in (r, (s, snd st ++ [CreatedC r]));
  y_set_parameter := fun c p x st => (y_set_parameter y c p x (fst st), snd st ++ [SetC c p x]);
  y_compress2 := fun c n d st => let '(r, s) := y_compress2 y c n d (fst st) in (r, (s, snd st ++ [UsedC c]));
  y_free_cctx := fun c st => (y_free_cctx y c (fst st), snd st ++ [FreedC c]);
  y_create_dctx := fun st => let '(r, s) := y_create_dctx y (fst st) in (r, (s, snd st ++ [CreatedD r]));
  y_set_d_parameter := fun c p x st => (y_set_d_parameter y c p x (fst st), snd st ++ [SetD c x]);
  y_decompress := fun c n d st => let '(r, s) := y_decompress y c n d (fst st) in (r, (s, snd st ++ [UsedD c]));
  y_free_dctx := fun c st => (y_free_dctx y c (fst st), snd st ++ [FreedD c]);
  y_is_error := y_is_error y |}.
(** The life of the one context of a call. *)
Definition life_c (level : Z) (c : option Z) : list codec_event :=
  match c with
  | None => [CreatedC None]
  | Some c => [CreatedC (Some c); SetC c ZCompressionLevel level; SetC c ZFormat 1; SetC c ZContentSizeFlag 0; SetC c ZChecksumFlag 0;
               SetC c ZDictIDFlag 0; UsedC c; FreedC c]
  end.
Definition life_d (c : option Z) : list codec_event :=
  match c with None => [CreatedD None] | Some c => [CreatedD (Some c); SetD c 1; UsedD c; FreedD c] end.

(** ** Histories *)

(** One use of the cache: these bytes, this level and algorithm; whether the file
    can be read if there is one, and how far writing it gets. In between the
    library may have been used for anything, so each use has its own state of it. *)
Record use (L : Type) := Use { u_data : list byte; u_level : Z; u_algorithm : algorithm; u_reads : bool; u_fate : save_fate; u_lib : L }.
Arguments Use {L}. Arguments u_data {L}. Arguments u_level {L}. Arguments u_algorithm {L}. Arguments u_reads {L}. Arguments u_fate {L}. Arguments u_lib {L}.
Definition one_use {L} (y : zstd_codec L) (hash : list byte -> Z) (u : use L) (sizes : size_cache) (c : data_cache) :=
  compress_data_cached y hash (u_reads u) (u_fate u) (u_data u) (u_level u) (u_algorithm u) sizes c (u_lib u).
(** The caches after a number of uses, starting with empty ones. A panic ends the
    process, which loses nothing on the disk. *)
Fixpoint uses {L} (y : zstd_codec L) (hash : list byte -> Z) (us : list (use L)) (sizes : size_cache) (c : data_cache) : size_cache * data_cache :=
  match us with
  | [] => (sizes, c)
  | u :: us =>
      match one_use y hash u sizes c with
      | Ok (_, (sizes, c, _)) => uses y hash us sizes c
      | _ => uses y hash us sizes c
      end
  end.
Definition no_files : data_cache := fun _ => None.
(** Nothing stopped in the middle of writing a file. *)
Definition not_cut {L} (u : use L) : Prop := forall n, u_fate u <> StopsAfter n.
(** No two different byte sequences with the same hash. *)
Definition no_collision (hash : list byte -> Z) (ds : list (list byte)) : Prop :=
  forall d d', In d ds -> In d' ds -> hash d = hash d' -> d = d'.
(** All the directory holds are frames of these byte sequences, in the format
    without a magic number, each under a name for its byte sequence. *)
Definition genuine (frame : parameters -> list byte -> list byte) (hash : list byte -> Z) (ds : list (list byte)) (c : data_cache) : Prop :=
  forall name bytes, c name = Some bytes -> exists d level ps, In d ds /\ name = cache_key (hash d) level ZStandard /\ ps ZFormat = 1 /\ bytes = frame ps d.
