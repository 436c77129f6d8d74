(** C23, C24: the header word that replaces the first four bytes of a file. *)
From Verif Require Import Base.Bytes Base.Res Model.Color565 Model.Kernel Model.Transform Model.Embed Spec.Header Spec.HeaderWord Proofs.EmbedFacts Proofs.EmbedBytes Props.Cases.

(** C23: the header of any format and settings, written anywhere into any
    buffer, reads back as that format and those settings; *)
Theorem C23_header_round_trip : forall (d : details) (mem : list byte) (off : Z), 0 <= off -> off + 4 <= zlen mem ->
  let h := read_from_ptr (write_to_ptr (details_header d) mem off) off in
  decodes_to h d /\ header_format h = Some (details_format d).
Proof. exact header_round_trip. Qed.
Print Assumptions C23_header_round_trip.
(** a header in the middle of a buffer *)
Example C23_header_round_trip_met :
  let d := DBc2 (Settings VNone true) in let mem := [xaa; xbb; xcc; xdd; xee; xff] in let off := 1 in
  0 <= off /\ off + 4 <= zlen mem.
Proof. met. Qed.

(** only those four bytes change; *)
Theorem C23_header_frame : forall (d : details) (mem : list byte) (off i : Z), 0 <= off -> off + 4 <= zlen mem ->
  zlen (write_to_ptr (details_header d) mem off) = zlen mem /\
  (0 <= i < off \/ off + 4 <= i < zlen mem -> znth (write_to_ptr (details_header d) mem off) i = znth mem i).
Proof. exact header_frame. Qed.
Print Assumptions C23_header_frame.
(** a header in the middle of a buffer, and the byte behind it *)
Example C23_header_frame_met :
  let d := DBc2 (Settings VNone true) in let mem := [xaa; xbb; xcc; xdd; xee; xff] in let off := 1 in let i := 5 in
  0 <= off /\ off + 4 <= zlen mem /\ off + 4 <= i < zlen mem.
Proof. met. Qed.

(** and two headers are equal only when format and settings are. *)
Theorem C23_header_injective : forall d d' : details, details_header d = details_header d' -> d = d'.
Proof. exact header_injective. Qed.
Print Assumptions C23_header_injective.

(** The four bytes are exactly these, lowest first; reserved bits are written as
    0. *)
Theorem C23_header_bytes : forall (d : details) (mem : list byte) (off i : Z), 0 <= off -> off + 4 <= zlen mem -> 0 <= i < 4 ->
  details_header d = header_word d /\ Z.of_N (Byte.to_N (znth (write_to_ptr (details_header d) mem off) (off + i))) = bits (header_word d) (8 * i) 8.
Proof. exact header_bytes. Qed.
Print Assumptions C23_header_bytes.
Example C23_header_bytes_met :
  let d := DBc2 (Settings VNone true) in let mem := [xaa; xbb; xcc; xdd; xee; xff] in let off := 1 in let i := 1 in
  0 <= off /\ off + 4 <= zlen mem /\ 0 <= i < 4 /\ header_word d = 449 /\ bits (header_word d) (8 * i) 8 = 1.
Proof. met. Qed.

Example C23_nontrivial :
  let buf := [xaa; xbb; xcc; xdd; xee; xff] in
  write_to_ptr (details_header (DBc2 (Settings VNone true))) buf 1 = [xaa; xc1; x01; x00; x00; xff] /\
  read_from_ptr (write_to_ptr (details_header (DBc2 (Settings VNone true))) buf 1) 1 = 449 /\
  from_header bc2_details 449 = ROk (Settings VNone true) /\ from_header bc1_details 449 = RErr UnknownFormat.
Proof. vm_compute. repeat split; reflexivity. Qed.

(** C24: every 32-bit word, read by every decoder. The format field must be the
    decoder's own, the version 0 and, where a format has reserved bits it
    checks, those 0; everything else is one of two errors. *)
Theorem C24_bc1_decode : forall h : Z, from_header bc1_details h =
  if negb (bits h 0 4 =? 0) then RErr UnknownFormat
  else if bits h 4 2 =? 0 then ROk (Settings (variant_of_code (bits h 7 2)) (bits h 6 1 =? 1)) else RErr CorruptedEmbeddedData.
Proof. exact (reads_by _ bc1_details 0 (fun h => bits h 4 2 =? 0) (fun h => Settings (variant_of_code (bits h 7 2)) (bits h 6 1 =? 1)) eq_refl bc12_bits). Qed.
Theorem C24_bc2_decode : forall h : Z, from_header bc2_details h =
  if negb (bits h 0 4 =? 1) then RErr UnknownFormat
  else if bits h 4 2 =? 0 then ROk (Settings (variant_of_code (bits h 7 2)) (bits h 6 1 =? 1)) else RErr CorruptedEmbeddedData.
Proof. exact (reads_by _ bc2_details 1 (fun h => bits h 4 2 =? 0) (fun h => Settings (variant_of_code (bits h 7 2)) (bits h 6 1 =? 1)) eq_refl bc12_bits). Qed.
Theorem C24_bc3_decode : forall h : Z, from_header bc3_details h =
  if negb (bits h 0 4 =? 2) then RErr UnknownFormat
  else if bits h 4 2 =? 0 then ROk tt else RErr CorruptedEmbeddedData.
Proof. exact (reads_by _ bc3_details 2 (fun h => bits h 4 2 =? 0) (fun _ => tt) eq_refl version_unpack_bits). Qed.
Theorem C24_bc7_decode : forall h : Z, from_header bc7_details h =
  if negb (bits h 0 4 =? 3) then RErr UnknownFormat
  else if bits h 4 2 =? 0 then ROk tt else RErr CorruptedEmbeddedData.
Proof. exact (reads_by _ bc7_details 3 (fun h => bits h 4 2 =? 0) (fun _ => tt) eq_refl version_unpack_bits). Qed.
Theorem C24_rgba8888_decode : forall h : Z, from_header rgba8888_details h =
  if negb (bits h 0 4 =? 5) then RErr UnknownFormat
  else if (bits h 4 2 =? 0) && (bits h 7 25 =? 0) then ROk (with_decorrelation (bits h 6 1 =? 1)) else RErr CorruptedEmbeddedData.
Proof. exact (reads_by _ rgba8888_details 5 (fun h => (bits h 4 2 =? 0) && (bits h 7 25 =? 0)) (fun h => with_decorrelation (bits h 6 1 =? 1)) eq_refl pixel_bits). Qed.
Theorem C24_bgra8888_decode : forall h : Z, from_header bgra8888_details h =
  if negb (bits h 0 4 =? 6) then RErr UnknownFormat
  else if (bits h 4 2 =? 0) && (bits h 7 25 =? 0) then ROk (with_decorrelation (bits h 6 1 =? 1)) else RErr CorruptedEmbeddedData.
Proof. exact (reads_by _ bgra8888_details 6 (fun h => (bits h 4 2 =? 0) && (bits h 7 25 =? 0)) (fun h => with_decorrelation (bits h 6 1 =? 1)) eq_refl pixel_bits). Qed.
Theorem C24_bgr888_decode : forall h : Z, from_header bgr888_details h =
  if negb (bits h 0 4 =? 7) then RErr UnknownFormat
  else if (bits h 4 2 =? 0) && (bits h 7 25 =? 0) then ROk (with_decorrelation (bits h 6 1 =? 1)) else RErr CorruptedEmbeddedData.
Proof. exact (reads_by _ bgr888_details 7 (fun h => (bits h 4 2 =? 0) && (bits h 7 25 =? 0)) (fun h => with_decorrelation (bits h 6 1 =? 1)) eq_refl pixel_bits). Qed.
Theorem C24_bc4_decode : forall h : Z, from_header bc4_details h =
  if negb (bits h 0 4 =? 8) then RErr UnknownFormat
  else if (bits h 4 2 =? 0) && (bits h 7 25 =? 0) then ROk (bits h 6 1 =? 1) else RErr CorruptedEmbeddedData.
Proof. exact (reads_by _ bc4_details 8 (fun h => (bits h 4 2 =? 0) && (bits h 7 25 =? 0)) (fun h => bits h 6 1 =? 1) eq_refl flag_bits). Qed.
Theorem C24_bc5_decode : forall h : Z, from_header bc5_details h =
  if negb (bits h 0 4 =? 9) then RErr UnknownFormat
  else if (bits h 4 2 =? 0) && (bits h 7 25 =? 0) then ROk (bits h 6 1 =? 1) else RErr CorruptedEmbeddedData.
Proof. exact (reads_by _ bc5_details 9 (fun h => (bits h 4 2 =? 0) && (bits h 7 25 =? 0)) (fun h => bits h 6 1 =? 1) eq_refl flag_bits). Qed.
Print Assumptions C24_bc1_decode.
Print Assumptions C24_bc2_decode.
Print Assumptions C24_bc3_decode.
Print Assumptions C24_bc7_decode.
Print Assumptions C24_rgba8888_decode.
Print Assumptions C24_bgra8888_decode.
Print Assumptions C24_bgr888_decode.
Print Assumptions C24_bc4_decode.
Print Assumptions C24_bc5_decode.

Example C24_nontrivial :
  from_header bc1_details 3735928560 = RErr CorruptedEmbeddedData /\
  from_header bc1_details 4294966912 = ROk (Settings V2 false) /\
  from_header bc4_details 200 = RErr CorruptedEmbeddedData /\
  from_header bc4_details 72 = ROk true /\ header_format 4294967295 = None.
Proof. vm_compute. repeat split; reflexivity. Qed.
