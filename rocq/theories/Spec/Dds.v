(** What a DDS header says, field by field.

    A DDS file starts with the four characters "DDS " and a header of 124 bytes.
    If the four-character code at byte 84 is "DX10", 20 more header bytes follow.
    The texture data come next, largest mip level first. *)
From Verif Require Import Base.Bytes Base.Res Model.Embed Model.Bundle Model.Dds.
From Coq Require Import Ascii.
Open Scope string_scope.
Open Scope list_scope.
Open Scope Z_scope.

(** The little-endian 32-bit number at a byte position. *)
Definition word (data : list byte) (off : Z) : Z :=
  u32le (znth data off) (znth data (off + 1)) (znth data (off + 2)) (znth data (off + 3)).
(** Four characters as such a number. *)
Definition four (s : string) : Z :=
  match s with
  | String a (String b (String c (String d EmptyString))) => u32le (byte_of_ascii a) (byte_of_ascii b) (byte_of_ascii c) (byte_of_ascii d)
  | _ => 0
  end.

Definition has_dx10 (data : list byte) : bool := word data 84 =? four "DX10".
(** Where the texture starts. *)
Definition header_bytes (data : list byte) : Z := if has_dx10 data then 148 else 128.
(** The file starts like a DDS file and its headers are complete. *)
Definition complete_headers (data : list byte) : bool :=
  (128 <=? zlen data) && (negb (has_dx10 data) || (148 <=? zlen data)).
Definition has_magic (data : list byte) : bool := word data 0 =? four "DDS ".

Definition between (a x b : Z) : bool := (a <=? x) && (x <=? b).
(** DXGI_FORMAT numbers. *)
Definition dxgi_format (n : Z) : dds_format :=
  if between 70 n 72 then DBC1 else if between 73 n 75 then DBC2 else if between 76 n 78 then DBC3
  else if between 79 n 81 then DBC4 else if between 82 n 84 then DBC5
  else if between 94 n 96 then DBC6H else if between 97 n 99 then DBC7
  else if between 27 n 32 then DRGBA8888 else if (n =? 87) || between 90 n 91 then DBGRA8888
  else Unknown.
(** Four-character codes. *)
Definition code_format (n : Z) : dds_format :=
  if n =? four "DXT1" then DBC1
  else if (n =? four "DXT2") || (n =? four "DXT3") then DBC2
  else if (n =? four "DXT4") || (n =? four "DXT5") then DBC3
  else if (n =? four "BC4U") || (n =? four "BC4S") || (n =? four "ATI1") then DBC4
  else if (n =? four "BC5U") || (n =? four "BC5S") || (n =? four "ATI2") then DBC5
  else Unknown.
(** Uncompressed pixels: bit count at 88, red, green, blue and alpha masks from
    92; flag bit 0 of the word at 80 announces an alpha channel. *)
Definition pixel_format (data : list byte) : dds_format :=
  let masks r g b a := (word data 92 =? r) && (word data 96 =? g) && (word data 100 =? b) && (word data 104 =? a) in
  if (word data 88 =? 24) && masks 0xFF0000 0xFF00 0xFF 0 then DBGR888
  else if (word data 88 =? 32) && Z.testbit (word data 80) 0 then
    if masks 0xFF 0xFF00 0xFF0000 0xFF000000 then DRGBA8888
    else if masks 0xFF0000 0xFF00 0xFF 0xFF000000 then DBGRA8888
    else Unknown
  else Unknown.
Definition stated_format (data : list byte) : dds_format :=
  if has_dx10 data then dxgi_format (word data 128)
  else if Z.testbit (word data 80) 2 then code_format (word data 84)
  else if Z.testbit (word data 80) 6 then pixel_format data
  else Unknown.

(** Bytes of one mip level of [w] x [h] pixels, if the header tells. *)
Definition level_bytes (data : list byte) (w h : Z) : option Z :=
  match stated_format data with
  | DBC1 | DBC4 => Some (8 * (((w + 3) / 4) * ((h + 3) / 4)))
  | DBC2 | DBC3 | DBC5 | DBC6H | DBC7 => Some (16 * (((w + 3) / 4) * ((h + 3) / 4)))
  | DRGBA8888 | DBGRA8888 => Some (4 * (w * h))
  | DBGR888 => Some (3 * (w * h))
  | Unknown =>
      let f := word data 80 in
      if (Z.testbit f 6 || Z.testbit f 17 || Z.testbit f 9 || Z.testbit f 1)
         && (word data 88 mod 8 =? 0) && negb (word data 88 / 8 =? 0)
      then Some (word data 88 / 8 * (w * h)) else None
  | NotADds => None
  end.
(** Width and height of level [i]: half the previous one, but at least 1. *)
Definition dim (n i : Z) : Z := if i =? 0 then n else Z.max 1 (n / 2 ^ i).
Definition mip_count (data : list byte) : Z := if Z.testbit (word data 8) 17 then Z.max 1 (word data 28) else 1.
Definition level (data : list byte) (i : Z) : option Z := level_bytes data (dim (word data 16) i) (dim (word data 12) i).
(** The size of the whole chain. *)
Definition chain_bytes (data : list byte) : Z :=
  fold_right Z.add 0 (map (fun i => match level data i with Some n => n | None => 0 end) (zseq 0 (Z.to_nat (mip_count data)))).
(** No single level needs more than 32 bits. *)
Definition levels_fit (data : list byte) : Prop :=
  forall i n, 0 <= i < mip_count data -> level data i = Some n -> n < 2 ^ 32.

(** The file's extension, if it is known, is that of a DDS file. *)
Definition dds_named (ext : option string) : bool := match ext with None => true | Some e => String.eqb e "dds" end.
(** The name of the texture format in the generic interface. *)
Definition block_format (f : dds_format) : option transform_format :=
  match f with
  | DBC1 => Some FBc1 | DBC2 => Some FBc2 | DBC3 => Some FBc3 | DBC4 => Some FBc4 | DBC5 => Some FBc5
  | DBC6H => Some FBc6H | DBC7 => Some FBc7
  | DRGBA8888 => Some FRgba8888 | DBGRA8888 => Some FBgra8888 | DBGR888 => Some FBgr888
  | NotADds | Unknown => None
  end.

(** Why a texture of this format cannot be transformed (the three uncompressed
    formats are left to the dispatch, which knows none of them, C35). *)
Definition refused (f : dds_format) : option transform_error :=
  match f with
  | DBC1 | DBC2 | DRGBA8888 | DBGRA8888 | DBGR888 => None
  | DBC3 => Some (EFormatHandler (FormatNotImplemented FBc3)) | DBC4 => Some (EFormatHandler (FormatNotImplemented FBc4))
  | DBC5 => Some (EFormatHandler (FormatNotImplemented FBc5)) | DBC6H => Some (EFormatHandler (FormatNotImplemented FBc6H))
  | DBC7 => Some (EFormatHandler (FormatNotImplemented FBc7))
  | NotADds | Unknown => Some (EFormatHandler UnknownFileFormat)
  end.

(** A DDS header of 128 bytes for the examples. *)
Definition sample_header (code width height mips : Z) : list byte :=
  List.concat (map u32_bytes ([four "DDS "; 124; 2 ^ 17; height; width; 0; 0; mips] ++ repeat 0 11 ++ [32; 4; code] ++ repeat 0 10)).
