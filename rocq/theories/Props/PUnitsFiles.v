(** C97: the units of the estimators in a bundle make no difference to textures and whole files. *)
From Verif Require Import Base.Bytes Base.Res Model.Color565 Model.Kernel Model.Transform Model.Auto Model.Builders Model.Embed Model.Bundle Model.Dds
  Model.BigEndian Model.BeTransform Model.BeFiles Spec.BigEndian Spec.Estimator Spec.Units Spec.UnitsFiles
  Proofs.BigEndianFacts Proofs.UnitsFiles Props.Cases Props.CasesAuto Props.PDds Props.PUnits.
Open Scope list_scope.
Open Scope Z_scope.

(** The builders: any texture and buffers. *)
Theorem C97_builders : forall (St Er : Type) (show : Er -> string) (k : codec) (c : cfg) (v : env) (f : Z -> Z) (b : builder St Er) (x out : list byte) (st : St),
  keeps_order f -> sizes_fit v f b ->
  transform_slice_with_details show k c v (builder_in_units f b) x out st = transform_slice_with_details show k c v b x out st.
Proof. intros St Er show k c v f b x out st. exact (builder_units show c v f k b x out st). Qed.
Print Assumptions C97_builders.
(** Whole files, valid or not, with a bundle whose two estimators have units of their own: the same result, the same bytes, the same
    errors and panics. The files made are therefore the same, and so is restoring them. *)
Theorem C97_dds : forall (St Er : Type) (show : Er -> string) (c : cfg) (v : env) (f1 f2 : Z -> Z) (t : bundle St Er) (x out : list byte) (st : St),
  keeps_order f1 -> keeps_order f2 ->
  (forall b, b_bc1 t = Some b -> sizes_fit v f1 b) -> (forall b, b_bc2 t = Some b -> sizes_fit v f2 b) ->
  dds_transform_bundle show c v (bundle_in_units f1 f2 t) x out st = dds_transform_bundle show c v t x out st.
Proof. intros St Er show c v f1 f2 t x out st K1 K2 H1 H2. exact (dds_units show c v f1 f2 K1 K2 t H1 H2 x out st). Qed.
Print Assumptions C97_dds.
(** The same on a big-endian machine. *)
Theorem C97_be_builders : forall (St Er : Type) (show : Er -> string) (k : codec) (debug : bool) (junk : byte) (v : env) (f : Z -> Z) (b : builder St Er) (x out : list byte) (st : St),
  keeps_order f -> sizes_fit v f b ->
  let c := big_endian_cpu debug junk in
  be_transform_slice_with_details show k c v (builder_in_units f b) x out st = be_transform_slice_with_details show k c v b x out st.
Proof. intros St Er show k d j v f b x out st. exact (be_builder_units show (big_endian_cpu d j) v f k b x out st). Qed.
Print Assumptions C97_be_builders.
Theorem C97_be_dds : forall (St Er : Type) (show : Er -> string) (debug : bool) (junk : byte) (v : env) (f1 f2 : Z -> Z) (t : bundle St Er) (x out : list byte) (st : St),
  keeps_order f1 -> keeps_order f2 ->
  (forall b, b_bc1 t = Some b -> sizes_fit v f1 b) -> (forall b, b_bc2 t = Some b -> sizes_fit v f2 b) ->
  let c := big_endian_cpu debug junk in
  be_dds_transform_bundle show c v (bundle_in_units f1 f2 t) x out st = be_dds_transform_bundle show c v t x out st.
Proof. intros St Er show d j v f1 f2 t x out st K1 K2 H1 H2. exact (be_dds_units show (big_endian_cpu d j) v f1 f2 K1 K2 t H1 H2 x out st). Qed.
Print Assumptions C97_be_dds.

(** A DDS file of BC1 blocks with an estimator that counts its questions, in bits with a penalty; BC2 by hand. *)
Example C97_dds_met : let t := with_bc2_manual (with_bc1_auto bundle_new (auto_new_ultra counts)) manual_new in
  let f := fun z => 8 * z + 5 in
  keeps_order f /\ (forall b, b_bc1 t = Some b -> sizes_fit roomy f b) /\ (forall b, b_bc2 t = Some b -> sizes_fit roomy f b) /\
  bundle_in_units f f t <> t /\
  (exists y st, dds_transform_bundle (fun _ => EmptyString) debug_cpu roomy t file1 file1 0 = Ok (ROk tt, y, st) /\ y <> file1) /\
  exists y st, be_dds_transform_bundle (fun _ => EmptyString) (big_endian_cpu true xaa) roomy t file1 file1 0 = Ok (ROk tt, y, st) /\ y <> file1.
Proof.
  cbv zeta. split; [exact bits_keep_order|]. split.
  { intros b H. injection H as <-. cbn [sizes_fit ab_estimator auto_new_ultra]. intros st d n z st' Q. pose proof (counts_bits _ _ _ _ _ Q). lia. }
  split; [intros b H; injection H as <-; exact I|]. split.
  { intros H. apply (f_equal (fun t => match b_bc1 t with Some (Auto b) => fst (estimate_compressed_size (ab_estimator b) 0 [] 0) | _ => ROk 0 end)) in H. vm_compute in H. discriminate H. }
  split; do 2 eexists; (split; [vm_compute; reflexivity|vm_compute; intros H; discriminate H]).
Qed.
