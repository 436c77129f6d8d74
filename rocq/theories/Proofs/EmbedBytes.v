(** The bytes of the header word. *)
From Verif Require Import Base.Bytes Base.Res Model.Color565 Model.Transform Model.Embed Spec.Header Spec.HeaderWord.

Lemma header_is_word : forall d, details_header d = header_word d.
Proof. intros [[[] []]|[[] []]| | |[]|[]|[]|[]|[]]; reflexivity. Qed.
Lemma header_bytes : forall d mem off i, 0 <= off -> off + 4 <= zlen mem -> 0 <= i < 4 ->
  details_header d = header_word d /\ Z.of_N (Byte.to_N (znth (write_to_ptr (details_header d) mem off) (off + i))) = bits (header_word d) (8 * i) 8.
Proof.
  intros d mem off i H0 Hm Hi. split; [apply header_is_word|]. rewrite header_is_word. unfold write_to_ptr.
  assert (L : zlen (u32_bytes (header_word d)) = 4) by reflexivity.
  rewrite znth_splice by lia. rewrite L. replace ((off <=? off + i) && (off + i <? off + 4)) with true by lia. replace (off + i - off) with i by lia.
  change (Z.of_N (Byte.to_N ?b)) with (b2z b). unfold bits.
  assert (C : i = 0 \/ i = 1 \/ i = 2 \/ i = 3) by lia.
  destruct C as [->|[->|[->| ->]]]; (etransitivity; [apply b2z_z2b|]); unfold Z.mul, Pos.mul.
  - rewrite Z.pow_0_r, Z.div_1_r. reflexivity.
  - reflexivity. - reflexivity. - reflexivity.
Qed.
