(** What the transforms produce on a big-endian machine: the sections of
    Spec/Layout.v, except that a colour is converted as the number that a
    big-endian machine reads from its two bytes. *)
From Verif Require Import Base.Bytes Model.Color565 Spec.YCoCg Spec.Layout.

(** The value of two bytes, the first being the most significant. *)
Definition u16be (a b : byte) : Z := 256 * b2z a + b2z b.

Definition be_colour (v : variant) (off : nat) : field := fun b =>
  let x := ycocg v (u16be (nth off b x00) (nth (S off) b x00)) in [hi8 x; lo8 x].

Definition be_colour_fields (v : variant) (split : bool) (off : nat) : list field :=
  if split then [be_colour v off; be_colour v (off + 2)]
  else [both (be_colour v off) (be_colour v (off + 2))].

Definition be_bc1_fields (v : variant) (split_colour : bool) : list field :=
  be_colour_fields v split_colour 0 ++ [raw 4 4].
Definition be_bc2_fields (v : variant) (split_colour : bool) : list field :=
  [raw 0 8] ++ be_colour_fields v split_colour 8 ++ [raw 12 4].
Definition be_bc3_fields (v : variant) (split_alpha split_colour : bool) : list field :=
  (if split_alpha then [raw 0 1; raw 1 1] else [raw 0 2]) ++ [raw 2 6]
  ++ be_colour_fields v split_colour 8 ++ [raw 12 4].

Definition be_bc1_layout (v : variant) (split_colour : bool) (l : list byte) : list byte :=
  lay (be_bc1_fields v split_colour) (blocks 8 l).
Definition be_bc2_layout (v : variant) (split_colour : bool) (l : list byte) : list byte :=
  lay (be_bc2_fields v split_colour) (blocks 16 l).
Definition be_bc3_layout (v : variant) (split_alpha split_colour : bool) (l : list byte) : list byte :=
  lay (be_bc3_fields v split_alpha split_colour) (blocks 16 l).
