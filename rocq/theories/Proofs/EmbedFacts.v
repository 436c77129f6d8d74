(** Header words. *)
From Verif Require Import Base.Bytes Base.Res Model.Color565 Model.Kernel Model.Transform Model.Embed Spec.Header Proofs.SliceFacts.
From Coq Require Import ZifyBool.

Lemma bit_range_bits : forall x msb lsb, 0 <= lsb -> lsb <= msb -> bit_range x msb lsb = bits x lsb (msb - lsb + 1).
Proof. intros. unfold bit_range, bits. rewrite Z.land_ones by lia. rewrite Z.shiftr_div_pow2 by lia. reflexivity. Qed.

Lemma bits_bits : forall h a w b w', 0 <= a -> 0 <= b -> 0 <= w' -> b + w' <= w -> bits (bits h a w) b w' = bits h (a + b) w'.
Proof.
  intros h a w b w' Ha Hb Hw' H. unfold bits. apply Z.bits_inj'. intros n Hn.
  destruct (Z.lt_ge_cases n w') as [L|G].
  - rewrite !Z.mod_pow2_bits_low by lia. rewrite !Z.div_pow2_bits by lia. rewrite Z.mod_pow2_bits_low by lia.
    rewrite Z.div_pow2_bits by lia. f_equal. lia.
  - rewrite !Z.mod_pow2_bits_high by lia. reflexivity.
Qed.

Lemma bit_bits : forall h a w i, 0 <= a -> 0 <= i < w -> bit (bits h a w) i = (bits h (a + i) 1 =? 1).
Proof.
  intros h a w i Ha Hi. unfold bit. rewrite Z.testbit_eqb by lia. change 2 with (2 ^ 1) at 2. fold (bits (bits h a w) i 1).
  rewrite bits_bits by lia. reflexivity.
Qed.

Lemma header_format_bits : forall h, header_format h =
  let f := bits h 0 4 in
  if f =? 0 then Some FBc1 else if f =? 1 then Some FBc2 else if f =? 2 then Some FBc3 else if f =? 3 then Some FBc7
  else if f =? 4 then Some FBc6H else if f =? 5 then Some FRgba8888 else if f =? 6 then Some FBgra8888
  else if f =? 7 then Some FBgr888 else if f =? 8 then Some FBc4 else if f =? 9 then Some FBc5 else None.
Proof.
  intros h. unfold header_format, format_raw. rewrite bit_range_bits by lia. cbn zeta.
  change (3 - 0 + 1) with 4. set (f := bits h 0 4). assert (F : 0 <= f < 16) by (unfold f, bits; change (2 ^ 4) with 16; lia).
  rewrite Z.mod_small by lia. unfold format_from_u8. change 15 with (Z.ones 4) at 1. rewrite Z.land_ones by lia.
  change (2 ^ 4) with 16. rewrite Z.mod_small by lia. clearbody f.
  assert (C : f = 0 \/ f = 1 \/ f = 2 \/ f = 3 \/ f = 4 \/ f = 5 \/ f = 6 \/ f = 7 \/ f = 8 \/ f = 9 \/ f = 10 \/ f = 11 \/ f = 12 \/ f = 13 \/ f = 14 \/ f = 15) by lia.
  repeat (destruct C as [->|C]; [reflexivity|]). subst. reflexivity.
Qed.

Lemma from_header_bits : forall {T} (e : embeddable T) h, from_header e h =
  if bits h 0 4 =? format_to_u8 (e_format e) then e_unpack e (bits h 4 28) else RErr UnknownFormat.
Proof.
  intros T e h. unfold from_header. rewrite header_format_bits. cbn zeta. unfold format_data. rewrite bit_range_bits by lia.
  change (31 - 4 + 1) with 28. set (f := bits h 0 4).
  repeat match goal with |- context [if f =? ?k then _ else _] => destruct (f =? k) eqn:?; [unfold format_eqb; cbn [format_to_u8]; destruct (e_format e); cbn [format_to_u8 Z.eqb Pos.eqb]; try lia; try (replace (f =? _) with false by lia; reflexivity); replace (f =? _) with true by lia; reflexivity|] end.
  destruct (e_format e); cbn [format_to_u8]; match goal with |- context [f =? ?k] => replace (f =? k) with false by lia end; reflexivity.
Qed.

Lemma version_bits : forall h, version_ok (bit_range (bits h 4 28) 1 0) = if bits h 4 2 =? 0 then ROk tt else RErr CorruptedEmbeddedData.
Proof.
  intros h. rewrite bit_range_bits by lia. rewrite bits_bits by lia. change (1 - 0 + 1) with 2. change (4 + 0) with 4.
  destruct (bits h 4 2 =? 0) eqn:E; [apply Z.eqb_eq in E; rewrite E; reflexivity|].
  unfold version_ok. destruct (bits h 4 2); [discriminate|reflexivity..].
Qed.

Lemma bc12_bits : forall h, bc12_unpack (bits h 4 28) =
  if bits h 4 2 =? 0 then ROk (Settings (variant_of_code (bits h 7 2)) (bits h 6 1 =? 1)) else RErr CorruptedEmbeddedData.
Proof.
  intros h. unfold bc12_unpack. rewrite version_bits. destruct (bits h 4 2 =? 0); [|reflexivity].
  rewrite bit_range_bits by lia. rewrite bits_bits by lia. rewrite bit_bits by lia.
  change (4 + 3) with 7. change (4 - 3 + 1) with 2. change (4 + 2) with 6.
  set (f := bits h 7 2). assert (F : 0 <= f < 4) by (unfold f, bits; change (2 ^ 2) with 4; lia). clearbody f.
  assert (C : f = 0 \/ f = 1 \/ f = 2 \/ f = 3) by lia.
  repeat (destruct C as [->|C]; [reflexivity|]). subst. reflexivity.
Qed.

Lemma reserved_bits : forall h, bit_range (bits h 4 28) 27 3 = bits h 7 25.
Proof. intros h. rewrite bit_range_bits by lia. rewrite bits_bits by lia. reflexivity. Qed.

Lemma flag_bits : forall h, flag_unpack (bits h 4 28) =
  if (bits h 4 2 =? 0) && (bits h 7 25 =? 0) then ROk (bits h 6 1 =? 1) else RErr CorruptedEmbeddedData.
Proof.
  intros h. unfold flag_unpack. rewrite version_bits. destruct (bits h 4 2 =? 0); [|reflexivity]. cbn [andb].
  rewrite reserved_bits. rewrite bit_bits by lia. change (4 + 2) with 6. destruct (bits h 7 25 =? 0); reflexivity.
Qed.

Lemma pixel_bits : forall h, pixel_unpack (bits h 4 28) =
  if (bits h 4 2 =? 0) && (bits h 7 25 =? 0) then ROk (with_decorrelation (bits h 6 1 =? 1)) else RErr CorruptedEmbeddedData.
Proof.
  intros h. unfold pixel_unpack. rewrite version_bits. destruct (bits h 4 2 =? 0) eqn:V; [|reflexivity]. cbn [andb].
  rewrite reserved_bits. destruct (bits h 7 25 =? 0) eqn:R; [|reflexivity]. cbn [negb]. f_equal.
  unfold bits in *. change (2 ^ 4) with 16 in *. change (2 ^ 28) with 268435456 in *. change (2 ^ 2) with 4 in *.
  change (2 ^ 7) with 128 in *. change (2 ^ 25) with 33554432 in *. change (2 ^ 6) with 64 in *. change (2 ^ 1) with 2 in *.
  destruct (h / 64 mod 2 =? 1) eqn:B; [change (with_decorrelation true) with 4|change (with_decorrelation false) with 0]; lia.
Qed.

(** ** Writing and reading back *)
Lemma u32le_bytes : forall h, 0 <= h < 4294967296 ->
  u32le (z2b h) (z2b (h / 256)) (z2b (h / 65536)) (z2b (h / 16777216)) = h.
Proof. intros h H. unfold u32le. rewrite !b2z_z2b. lia. Qed.

Lemma read_write : forall h mem off, 0 <= h < 4294967296 -> 0 <= off -> off + 4 <= zlen mem ->
  read_from_ptr (write_to_ptr h mem off) off = h.
Proof.
  intros h mem off Hh Ho Hm. unfold read_from_ptr, write_to_ptr.
  assert (N : forall i, 0 <= i < 4 -> znth (splice mem off (u32_bytes h)) (off + i) = nth (Z.to_nat i) (u32_bytes h) x00).
  { intros i Hi. unfold znth, splice, zlen in *. rewrite app_nth2 by (rewrite firstn_length; lia). rewrite firstn_length.
    rewrite app_nth1 by (cbn [u32_bytes List.length]; lia). f_equal. lia. }
  rewrite <- (Z.add_0_r off) at 2. rewrite !N by lia. apply u32le_bytes. exact Hh.
Qed.

Lemma details_bound : forall d, 0 <= details_header d < 4294967296.
Proof. intros [[[] []]|[[] []]| | |[]|[]|[]|[]|[]]; split; vm_compute; congruence. Qed.
Lemma details_decode : forall d, decodes_to (details_header d) d /\ header_format (details_header d) = Some (details_format d).
Proof. intros [[[] []]|[[] []]| | |[]|[]|[]|[]|[]]; split; reflexivity. Qed.

Lemma header_round_trip : forall d mem off, 0 <= off -> off + 4 <= zlen mem ->
  let h := read_from_ptr (write_to_ptr (details_header d) mem off) off in
  decodes_to h d /\ header_format h = Some (details_format d).
Proof. intros d mem off H0 Hm. cbn zeta. rewrite read_write by (try apply details_bound; assumption). apply details_decode. Qed.

Lemma header_injective : forall d d', details_header d = details_header d' -> d = d'.
Proof.
  intros d d' H. pose proof (details_decode d) as [D F]. pose proof (details_decode d') as [D' F']. rewrite H in D, F. rewrite F in F'.
  destruct d, d'; try discriminate F'; cbn [decodes_to] in *; try reflexivity; try congruence.
  all: rewrite D in D'; injection D' as E; destruct decorrelation, decorrelation0; try reflexivity; vm_compute in E; discriminate.
Qed.

Lemma header_frame : forall d mem off i, 0 <= off -> off + 4 <= zlen mem ->
  zlen (write_to_ptr (details_header d) mem off) = zlen mem /\
  (0 <= i < off \/ off + 4 <= i < zlen mem -> znth (write_to_ptr (details_header d) mem off) i = znth mem i).
Proof.
  intros d mem off i H0 Hm. unfold write_to_ptr. split.
  - apply (zlen_splice _ mem off); [lia|]. change (zlen (u32_bytes (details_header d))) with 4. lia.
  - intros Hi. apply (splice_frame mem _ off 4); [lia|reflexivity|lia|lia].
Qed.

(** ** What each decoder accepts *)
Definition reads {T} (e : embeddable T) (code : Z) (good : header -> bool) (val : header -> T) : Prop :=
  forall h, from_header e h =
    if negb (bits h 0 4 =? code) then RErr UnknownFormat
    else if good h then ROk (val h) else RErr CorruptedEmbeddedData.

Lemma reads_by : forall T (e : embeddable T) code (good : header -> bool) (val : header -> T), format_to_u8 (e_format e) = code ->
  (forall h, e_unpack e (bits h 4 28) = if good h then ROk (val h) else RErr CorruptedEmbeddedData) -> reads e code good val.
Proof. intros T e code good val Hc Hu h. rewrite from_header_bits. rewrite Hc, Hu. destruct (bits h 0 4 =? code); reflexivity. Qed.

Lemma version_unpack_bits : forall h, version_unpack (bits h 4 28) = if bits h 4 2 =? 0 then ROk tt else RErr CorruptedEmbeddedData.
Proof. exact version_bits. Qed.
