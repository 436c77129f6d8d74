(** C41: BC7 bit-field helpers, for every byte, value and bit range, in debug and
    release builds. Bit 0 is the most significant bit of the byte. *)
From Verif Require Import Base.Bytes Base.Res Model.Bc7Bits Proofs.Bc7BitsFacts Props.Cases.

Theorem C41_extract_is_bit_field : forall debug byte start end_,
  0 <= start -> start <= end_ -> end_ <= 7 -> 0 <= byte < 256 ->
  extract_msb_bits debug byte start end_ = Ok (byte / 2 ^ (7 - end_) mod 2 ^ (end_ - start + 1)).
Proof. exact extract_value. Qed.
Print Assumptions C41_extract_is_bit_field.
(** three bits in the middle of a byte *)
Example C41_extract_is_bit_field_met :
  let debug := true in let byte := 209 in let start := 1 in let end_ := 3 in
  0 <= start /\ start <= end_ /\ end_ <= 7 /\ 0 <= byte < 256.
Proof. met. Qed.

Theorem C41_insert_changes_only_field : forall debug byte value start end_,
  0 <= start -> start <= end_ -> end_ <= 7 -> 0 <= byte < 256 -> 0 <= value < 256 ->
  exists r, insert_msb_bits debug byte value start end_ = Ok r /\ 0 <= r < 256 /\
    forall i, 0 <= i <= 7 ->
      Z.testbit r (7 - i) =
      if (start <=? i) && (i <=? end_) then Z.testbit value (end_ - i) else Z.testbit byte (7 - i).
Proof. exact insert_ok_bits. Qed.
Print Assumptions C41_insert_changes_only_field.
(** three bits in the middle of a byte *)
Example C41_insert_changes_only_field_met :
  let debug := true in let byte := 129 in let value := 5 in let start := 1 in let end_ := 3 in
  0 <= start /\ start <= end_ /\ end_ <= 7 /\ 0 <= byte < 256 /\ 0 <= value < 256.
Proof. met. Qed.

Theorem C41_extract_after_insert : forall debug byte value start end_,
  0 <= start -> start <= end_ -> end_ <= 7 -> 0 <= byte < 256 -> 0 <= value < 256 ->
  exists r, insert_msb_bits debug byte value start end_ = Ok r /\ 0 <= r < 256 /\
    extract_msb_bits debug r start end_ = Ok (value mod 2 ^ (end_ - start + 1)).
Proof. exact extract_insert. Qed.
Print Assumptions C41_extract_after_insert.

Example C41_nontrivial :
  insert_msb_bits true 129 5 1 3 = Ok 209 /\ extract_msb_bits true 209 1 3 = Ok 5.
Proof. vm_compute. split; reflexivity. Qed.
