(** The header word of a transformed file, bit by bit:

    bits 0-3 format, bits 4-5 version (0), then per format
    BC1, BC2: bit 6 split endpoints, bits 7-8 decorrelation (0: variant 1, 1:
      variant 2, 2: variant 3, 3: none), bits 9-31 reserved;
    BC3, BC7: bits 6-31 reserved;
    BC4, BC5, RGBA8888, BGRA8888, BGR888: bit 6 a flag, bits 7-31 reserved (0). *)
From Verif Require Import Base.Bytes Base.Res Model.Color565 Model.Transform Model.Embed.

(** [w] bits from bit [lo] *)
Definition bits (h lo w : Z) : Z := (h / 2 ^ lo) mod 2 ^ w.

Definition variant_of_code (c : Z) : variant := if c =? 0 then V1 else if c =? 1 then V2 else if c =? 2 then V3 else VNone.

(** Everything a header can say. *)
Inductive details :=
| DBc1 (s : settings) | DBc2 (s : settings) | DBc3 | DBc7 | DBc4 (split_endpoints : bool) | DBc5 (split_endpoints : bool)
| DRgba8888 (decorrelation : bool) | DBgra8888 (decorrelation : bool) | DBgr888 (decorrelation : bool).
Definition details_header (d : details) : header :=
  match d with
  | DBc1 s => to_header bc1_details s
  | DBc2 s => to_header bc2_details s
  | DBc3 => to_header bc3_details tt
  | DBc7 => to_header bc7_details tt
  | DBc4 b => to_header bc4_details b
  | DBc5 b => to_header bc5_details b
  | DRgba8888 b => to_header rgba8888_details (with_decorrelation b)
  | DBgra8888 b => to_header bgra8888_details (with_decorrelation b)
  | DBgr888 b => to_header bgr888_details (with_decorrelation b)
  end.
Definition details_format (d : details) : transform_format :=
  match d with
  | DBc1 _ => FBc1 | DBc2 _ => FBc2 | DBc3 => FBc3 | DBc7 => FBc7 | DBc4 _ => FBc4 | DBc5 _ => FBc5
  | DRgba8888 _ => FRgba8888 | DBgra8888 _ => FBgra8888 | DBgr888 _ => FBgr888
  end.
(** what every decoder makes of a header *)
Definition decodes_to (h : header) (d : details) : Prop :=
  match d with
  | DBc1 s => from_header bc1_details h = ROk s
  | DBc2 s => from_header bc2_details h = ROk s
  | DBc3 => from_header bc3_details h = ROk tt
  | DBc7 => from_header bc7_details h = ROk tt
  | DBc4 b => from_header bc4_details h = ROk b
  | DBc5 b => from_header bc5_details h = ROk b
  | DRgba8888 b => from_header rgba8888_details h = ROk (with_decorrelation b)
  | DBgra8888 b => from_header bgra8888_details h = ROk (with_decorrelation b)
  | DBgr888 b => from_header bgr888_details h = ROk (with_decorrelation b)
  end.
