(** What [_mm_slli_epi32], [_mm_srai_epi32] and [_mm_packs_epi32] compute, as the
    instruction set reference says it (PSLLD, PSRAD, PACKSSDW on 128 bits): lanes of four
    bytes, low byte first. Model/GenBenchSplit565.v says the same in byte picks. *)
From Verif Require Import Base.Bytes.

Fixpoint lanes (l : list byte) : list (byte * byte * byte * byte) :=
  match l with a :: b :: c :: d :: r => (a, b, c, d) :: lanes r | _ => [] end.
Definition lane_val (q : byte * byte * byte * byte) : Z :=
  let '(a, b, c, d) := q in b2z a + 256 * (b2z b + 256 * (b2z c + 256 * b2z d)).
(** The lane as a signed number. *)
Definition signed32 (x : Z) : Z := if x <? 2147483648 then x else x - 4294967296.
Definition le32 (x : Z) : list byte := [z2b x; z2b (x / 256); z2b (x / 65536); z2b (x / 16777216)].
Definition le16 (x : Z) : list byte := [z2b x; z2b (x / 256)].

Definition slli_epi32 (k : Z) (x : list byte) : list byte :=
  List.concat (map (fun q => le32 (lane_val q * 2 ^ k)) (lanes x)).
Definition srai_epi32 (k : Z) (x : list byte) : list byte :=
  List.concat (map (fun q => le32 (signed32 (lane_val q) / 2 ^ k)) (lanes x)).
(** Signed saturation to 16 bits. *)
Definition sat16 (x : Z) : Z := Z.max (-32768) (Z.min 32767 x).
Definition packs_epi32 (x y : list byte) : list byte :=
  List.concat (map (fun q => le16 (sat16 (signed32 (lane_val q)))) (lanes x ++ lanes y)).
