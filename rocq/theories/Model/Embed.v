(** The 4-byte header that replaces the magic of a transformed file. *)
From Verif Require Import Base.Bytes Base.Res Model.Color565 Model.Kernel Model.Transform.

(** ** Bit fields

    The [bitfield!] macro (crate bitfield): [name, set_name: msb, lsb] reads
    [(x >> lsb) & ((1 << width) - 1)], and writes by clearing the field's mask
    and or-ing [value << lsb & mask]; [name, set_name: bit] is a [bool].
    src/api/dxt-lossless-transform-file-formats-api/src/embed/formats/bc2.rs:30 *)
Definition bit_range (x msb lsb : Z) : Z := Z.land (Z.shiftr x lsb) (Z.ones (msb - lsb + 1)).
Definition set_bit_range (x msb lsb value : Z) : Z :=
  let mask := Z.shiftl (Z.ones (msb - lsb + 1)) lsb in
  Z.lor (Z.ldiff x mask) (Z.land (Z.shiftl value lsb) mask).
Definition bit (x i : Z) : bool := Z.testbit x i.
Definition set_bit (x i : Z) (b : bool) : Z := if b then Z.setbit x i else Z.clearbit x i.

(** src/api/dxt-lossless-transform-file-formats-api/src/embed/embed_error.rs:7-15 *)
Inductive embed_error := CorruptedEmbeddedData | UnknownFormat.

(** src/api/dxt-lossless-transform-file-formats-api/src/embed/transform_format.rs:10-31 *)
Inductive transform_format := FBc1 | FBc2 | FBc3 | FBc7 | FBc6H | FRgba8888 | FBgra8888 | FBgr888 | FBc4 | FBc5.

(** src/api/dxt-lossless-transform-file-formats-api/src/embed/transform_format.rs:38-53 *)
Definition format_from_u8 (value : Z) : option transform_format :=
  match Z.land value 15 with
  | 0 => Some FBc1 | 1 => Some FBc2 | 2 => Some FBc3 | 3 => Some FBc7 | 4 => Some FBc6H
  | 5 => Some FRgba8888 | 6 => Some FBgra8888 | 7 => Some FBgr888 | 8 => Some FBc4 | 9 => Some FBc5
  | _ => None
  end.
(** src/api/dxt-lossless-transform-file-formats-api/src/embed/transform_format.rs:56-69 *)
Definition format_to_u8 (f : transform_format) : Z :=
  match f with
  | FBc1 => 0 | FBc2 => 1 | FBc3 => 2 | FBc7 => 3 | FBc6H => 4
  | FRgba8888 => 5 | FBgra8888 => 6 | FBgr888 => 7 | FBc4 => 8 | FBc5 => 9
  end.
Definition format_eqb (a b : transform_format) : bool := format_to_u8 a =? format_to_u8 b.

(** ** The header: a [u32] (src/api/dxt-lossless-transform-file-formats-api/src/embed/mod.rs:105-120) *)
Definition header := Z.
Definition format_raw (h : header) : Z := bit_range h 3 0.
Definition format_data (h : header) : Z := bit_range h 31 4.
(** src/api/dxt-lossless-transform-file-formats-api/src/embed/mod.rs:124-129 *)
Definition header_new (f : transform_format) (data : Z) : header :=
  set_bit_range (set_bit_range 0 3 0 (format_to_u8 f)) 31 4 data.
(** src/api/dxt-lossless-transform-file-formats-api/src/embed/mod.rs:136-138; [as u8] of a 4-bit number changes nothing *)
Definition header_format (h : header) : option transform_format := format_from_u8 (format_raw h mod 256).
(** src/api/dxt-lossless-transform-file-formats-api/src/embed/mod.rs:147-150, on a slice of at least 4 bytes from the pointer *)
Definition read_from_ptr (mem : list byte) (off : Z) : header :=
  u32le (znth mem off) (znth mem (off + 1)) (znth mem (off + 2)) (znth mem (off + 3)).
(** src/api/dxt-lossless-transform-file-formats-api/src/embed/mod.rs:159-161 *)
Definition write_to_ptr (h : header) (mem : list byte) (off : Z) : list byte := splice mem off (u32_bytes h).

(** ** Details per format (src/api/dxt-lossless-transform-file-formats-api/src/embed/formats/mod.rs:34-52 EmbeddableTransformDetails) *)
Record embeddable (T : Type) := Embeddable {
  e_format : transform_format;
  e_pack : T -> Z;
  e_unpack : Z -> result T embed_error
}.
Arguments e_format {T}. Arguments e_pack {T}. Arguments e_unpack {T}. Arguments Embeddable {T}.
(** src/api/dxt-lossless-transform-file-formats-api/src/embed/formats/mod.rs:45-51 *)
Definition from_header {T} (e : embeddable T) (h : header) : result T embed_error :=
  match header_format h with
  | Some f => if format_eqb f (e_format e) then e_unpack e (format_data h) else RErr UnknownFormat
  | None => RErr UnknownFormat
  end.
(** to_header of every format, e.g. src/api/dxt-lossless-transform-file-formats-api/src/embed/formats/bc1.rs:123-125 *)
Definition to_header {T} (e : embeddable T) (x : T) : header := header_new (e_format e) (e_pack e x).

(** HeaderVersion::from_u32, the same in every format, e.g.
    src/api/dxt-lossless-transform-file-formats-api/src/embed/formats/bc1.rs:21-26 *)
Definition version_ok (v : Z) : result unit embed_error :=
  match v with 0 => ROk tt | _ => RErr CorruptedEmbeddedData end.

(** src/api/dxt-lossless-transform-file-formats-api/src/embed/formats/bc1.rs:59-67 (src/api/dxt-lossless-transform-file-formats-api/src/embed/formats/bc2.rs:61-69) *)
Definition variant_to_u32 (v : variant) : Z := match v with V1 => 0 | V2 => 1 | V3 => 2 | VNone => 3 end.
(** src/api/dxt-lossless-transform-file-formats-api/src/embed/formats/bc1.rs:70-78 (src/api/dxt-lossless-transform-file-formats-api/src/embed/formats/bc2.rs:72-80) *)
Definition u32_to_variant (z : Z) : result variant embed_error :=
  match z with 0 => ROk V1 | 1 => ROk V2 | 2 => ROk V3 | 3 => ROk VNone | _ => RErr CorruptedEmbeddedData end.

(** src/api/dxt-lossless-transform-file-formats-api/src/embed/formats/bc1.rs:81-88 *)
Definition bc1_pack (s : settings) : Z :=
  let h := set_bit_range 0 1 0 0 in
  let h := set_bit h 2 (split_colour_endpoints s) in
  let h := set_bit_range h 4 3 (variant_to_u32 (decorrelation_mode s)) in
  set_bit_range h 27 5 0.
(** src/api/dxt-lossless-transform-file-formats-api/src/embed/formats/bc2.rs:83-90 *)
Definition bc2_pack (s : settings) : Z :=
  let h := set_bit_range 0 1 0 0 in
  let h := set_bit_range h 4 3 (variant_to_u32 (decorrelation_mode s)) in
  let h := set_bit h 2 (split_colour_endpoints s) in
  set_bit_range h 27 5 0.
(** src/api/dxt-lossless-transform-file-formats-api/src/embed/formats/bc1.rs:91-100 (src/api/dxt-lossless-transform-file-formats-api/src/embed/formats/bc2.rs:93-102) *)
Definition bc12_unpack (d : Z) : result settings embed_error :=
  match version_ok (bit_range d 1 0) with
  | RErr e => RErr e
  | ROk _ => match u32_to_variant (bit_range d 4 3) with
             | RErr e => RErr e
             | ROk m => ROk (Settings m (bit d 2))
             end
  end.
(** src/api/dxt-lossless-transform-file-formats-api/src/embed/formats/bc1.rs:107-117, src/api/dxt-lossless-transform-file-formats-api/src/embed/formats/bc2.rs:105-115 *)
Definition bc1_details : embeddable settings := Embeddable FBc1 bc1_pack bc12_unpack.
Definition bc2_details : embeddable settings := Embeddable FBc2 bc2_pack bc12_unpack.

(** src/api/dxt-lossless-transform-file-formats-api/src/embed/formats/bc3.rs:51-70, src/api/dxt-lossless-transform-file-formats-api/src/embed/formats/bc7.rs:68-87: a version and nothing else *)
Definition version_pack (_ : unit) : Z := set_bit_range (set_bit_range 0 1 0 0) 27 2 0.
Definition version_unpack (d : Z) : result unit embed_error := version_ok (bit_range d 1 0).
Definition bc3_details : embeddable unit := Embeddable FBc3 version_pack version_unpack.
Definition bc7_details : embeddable unit := Embeddable FBc7 version_pack version_unpack.

(** src/api/dxt-lossless-transform-file-formats-api/src/embed/formats/bc4.rs:94-115, src/api/dxt-lossless-transform-file-formats-api/src/embed/formats/bc5.rs:94-115; the settings are one bool *)
Definition flag_pack (b : bool) : Z := set_bit_range (set_bit (set_bit_range 0 1 0 0) 2 b) 27 3 0.
Definition flag_unpack (d : Z) : result bool embed_error :=
  match version_ok (bit_range d 1 0) with
  | RErr e => RErr e
  | ROk _ => if negb (bit_range d 27 3 =? 0) then RErr CorruptedEmbeddedData else ROk (bit d 2)
  end.
Definition bc4_details : embeddable bool := Embeddable FBc4 flag_pack flag_unpack.
Definition bc5_details : embeddable bool := Embeddable FBc5 flag_pack flag_unpack.

(** src/api/dxt-lossless-transform-file-formats-api/src/embed/formats/rgba8888.rs:58-107 (src/api/dxt-lossless-transform-file-formats-api/src/embed/formats/bgra8888.rs, src/api/dxt-lossless-transform-file-formats-api/src/embed/formats/bgr888.rs the same): the
    details are the packed [u32] itself *)
Definition with_decorrelation (b : bool) : Z := set_bit_range (set_bit (set_bit_range 0 1 0 0) 2 b) 27 3 0.
Definition pixel_unpack (d : Z) : result Z embed_error :=
  match version_ok (bit_range d 1 0) with
  | RErr e => RErr e
  | ROk _ => if negb (bit_range d 27 3 =? 0) then RErr CorruptedEmbeddedData else ROk d
  end.
Definition rgba8888_details : embeddable Z := Embeddable FRgba8888 (fun d => d) pixel_unpack.
Definition bgra8888_details : embeddable Z := Embeddable FBgra8888 (fun d => d) pixel_unpack.
Definition bgr888_details : embeddable Z := Embeddable FBgr888 (fun d => d) pixel_unpack.
