(** What the transforms are supposed to produce, as plain list functions.

    A texture is a list of bytes cut into blocks of 8 (BC1) or 16 (BC2, BC3)
    bytes. The transform writes one section per field of the block: first that
    field of block 0, of block 1, ..., then the next field. *)
From Verif Require Import Base.Bytes Model.Color565 Spec.YCoCg.

(** [n] consecutive pieces of [k] bytes. *)
Fixpoint chunks (k n : nat) (l : list byte) : list (list byte) :=
  match n with O => [] | S n' => firstn k l :: chunks k n' (skipn k l) end.
(** The blocks of a texture. *)
Definition blocks (k : nat) (l : list byte) : list (list byte) := chunks k (List.length l / k) l.

(** A field: the bytes of the section that come from one block. *)
Definition field := list byte -> list byte.

(** All the sections, one after another. *)
Definition lay (fields : list field) (bs : list (list byte)) : list byte :=
  List.concat (map (fun f => List.concat (map f bs)) fields).

(** [n] bytes from byte [off] of the block, as they are. *)
Definition raw (off n : nat) : field := fun b => firstn n (skipn off b).
(** The little-endian RGB565 colour at byte [off], in YCoCg variant [v]. *)
Definition colour (v : variant) (off : nat) : field := fun b =>
  let x := ycocg v (u16le (nth off b x00) (nth (S off) b x00)) in [lo8 x; hi8 x].
Definition both (f g : field) : field := fun b => f b ++ g b.

(** The two colour endpoints at byte [off]: one section each, or one section
    for both. *)
Definition colour_fields (v : variant) (split : bool) (off : nat) : list field :=
  if split then [colour v off; colour v (off + 2)]
  else [both (colour v off) (colour v (off + 2))].

(** BC1 block: colour 0 (2 bytes), colour 1 (2), indices (4). *)
Definition bc1_fields (v : variant) (split_colour : bool) : list field :=
  colour_fields v split_colour 0 ++ [raw 4 4].
(** BC2 block: alpha (8), colour 0 (2), colour 1 (2), indices (4). *)
Definition bc2_fields (v : variant) (split_colour : bool) : list field :=
  [raw 0 8] ++ colour_fields v split_colour 8 ++ [raw 12 4].
(** BC3 block: alpha 0 (1), alpha 1 (1), alpha indices (6), colour 0 (2),
    colour 1 (2), indices (4). *)
Definition bc3_fields (v : variant) (split_alpha split_colour : bool) : list field :=
  (if split_alpha then [raw 0 1; raw 1 1] else [raw 0 2]) ++ [raw 2 6]
  ++ colour_fields v split_colour 8 ++ [raw 12 4].

Definition bc1_layout (v : variant) (split_colour : bool) (l : list byte) : list byte :=
  lay (bc1_fields v split_colour) (blocks 8 l).
Definition bc2_layout (v : variant) (split_colour : bool) (l : list byte) : list byte :=
  lay (bc2_fields v split_colour) (blocks 16 l).
Definition bc3_layout (v : variant) (split_alpha split_colour : bool) (l : list byte) : list byte :=
  lay (bc3_fields v split_alpha split_colour) (blocks 16 l).

(** Section widths: how many bytes of each block a section holds. *)
Definition colour_widths (split : bool) : list nat := if split then [2; 2]%nat else [4]%nat.
Definition bc1_widths (split_colour : bool) : list nat := colour_widths split_colour ++ [4]%nat.
Definition bc2_widths (split_colour : bool) : list nat := [8]%nat ++ colour_widths split_colour ++ [4]%nat.
Definition bc3_widths (split_alpha split_colour : bool) : list nat :=
  (if split_alpha then [1; 1]%nat else [2]%nat) ++ [6]%nat ++ colour_widths split_colour ++ [4]%nat.

(** The block that the byte at position [p] belongs to, when [n] blocks are laid
    out in sections of these widths. *)
Fixpoint owner (widths : list nat) (n p : nat) : nat :=
  match widths with
  | [] => O
  | w :: ws => if (p <? n * w)%nat then (p / w)%nat else owner ws n (p - n * w)
  end.
