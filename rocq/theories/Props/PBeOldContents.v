(** C98 on a big-endian machine, where debug builds need no condition. *)
From Verif Require Import Base.Bytes Base.Res Model.Color565 Model.Kernel Model.Transform Model.Auto Model.Builders Model.Embed Model.Bundle Model.Dds Model.BigEndian Model.BeTransform Model.BeFiles
  Spec.Layout Spec.BigEndian Spec.Estimator Spec.Files Spec.BeFiles Spec.OldContents Proofs.BigEndianFacts Proofs.DdsHandler Proofs.BeOldContents Props.Cases Props.CasesAuto Props.PDds.
Open Scope list_scope.
Open Scope Z_scope.

Theorem C98_be_bc1_auto : forall (St Er : Type) (debug : bool) (junk : byte) (v : env) (e : estimator St Er) (all : bool) (x out1 out2 : list byte) (st : St),
  zlen x <= zlen out1 -> zlen x <= zlen out2 ->
  let c := big_endian_cpu debug junk in
  same_call (List.length x) (be_transform_bc1_auto c v e all x out1 st) (be_transform_bc1_auto c v e all x out2 st).
Proof. intros St Er d j v e all x out1 out2 st. exact (be_old_bc1 (big_endian_cpu d j) v e all x out1 out2 st (big_endian_ok d j)). Qed.
Print Assumptions C98_be_bc1_auto.
Theorem C98_be_bc2_auto : forall (St Er : Type) (debug : bool) (junk : byte) (v : env) (e : estimator St Er) (all : bool) (x out1 out2 : list byte) (st : St),
  zlen x <= zlen out1 -> zlen x <= zlen out2 ->
  let c := big_endian_cpu debug junk in
  same_call (List.length x) (be_transform_bc2_auto c v e all x out1 st) (be_transform_bc2_auto c v e all x out2 st).
Proof. intros St Er d j v e all x out1 out2 st. exact (be_old_bc2 (big_endian_cpu d j) v e all x out1 out2 st (big_endian_ok d j)). Qed.
Print Assumptions C98_be_bc2_auto.
Theorem C98_be_bc3_auto : forall (St Er : Type) (debug : bool) (junk : byte) (v : env) (e : estimator St Er) (all : bool) (x out1 out2 : list byte) (st : St),
  zlen x <= zlen out1 -> zlen x <= zlen out2 ->
  (forall st d n z st', estimate_compressed_size e st d n = (ROk z, st') -> 2 * z <= usize_max v) ->
  let c := big_endian_cpu debug junk in
  same_call (List.length x) (be_transform_bc3_auto c v e all x out1 st) (be_transform_bc3_auto c v e all x out2 st).
Proof. intros St Er d j v e all x out1 out2 st. exact (be_old_bc3 (big_endian_cpu d j) v e all x out1 out2 st (big_endian_ok d j)). Qed.
Print Assumptions C98_be_bc3_auto.
Theorem C98_be_dds_transform : forall (St Er : Type) (show : Er -> string) (debug : bool) (junk : byte) (v : env) (t : bundle St Er) (x out1 out2 : list byte) (st : St),
  zlen out1 = zlen out2 -> let c := big_endian_cpu debug junk in
  same_call (List.length x) (be_dds_transform_bundle show c v t x out1 st) (be_dds_transform_bundle show c v t x out2 st).
Proof.
  intros St Er show d j v t x out1 out2 st L. apply be_old_dds; [exact (big_endian_ok d j)|exact L|]. intros i P.
  apply parse_dds_facts in P. destruct P as (_ & P). apply parse_facts in P. lia.
Qed.
Print Assumptions C98_be_dds_transform.
Theorem C98_be_dds_restore : forall (debug : bool) (junk : byte) (v : env) (x out1 out2 : list byte), zlen out1 = zlen out2 -> let c := big_endian_cpu debug junk in
  same_plain_call (List.length x) (be_dds_untransform c v x out1) (be_dds_untransform c v x out2).
Proof. intros d j v x out1 out2 L. exact (be_old_undds (big_endian_cpu d j) v (big_endian_ok d j) x out1 out2 L). Qed.
Print Assumptions C98_be_dds_restore.
Theorem C98_be_dispatch : forall (St Er : Type) (show : Er -> string) (debug : bool) (junk : byte) (v : env) (t : bundle St Er) (f : transform_format) (h : header) (x out1 out2 : list byte) (st : St),
  zlen out1 = zlen out2 -> let c := big_endian_cpu debug junk in
  same_call (List.length x) (be_dispatch_transform show c v t f x out1 st) (be_dispatch_transform show c v t f x out2 st) /\
  same_plain_call (List.length x) (be_dispatch_untransform c h x out1) (be_dispatch_untransform c h x out2).
Proof.
  intros St Er show d j v t f h x out1 out2 st L. split;
    [exact (be_old_dispatch show (big_endian_cpu d j) v x out1 out2 st (big_endian_ok d j) L t f)|exact (be_old_undispatch (big_endian_cpu d j) x out1 out2 (big_endian_ok d j) L h)].
Qed.
Print Assumptions C98_be_dispatch.
Theorem C98_be_builders : forall (St Er : Type) (show : Er -> string) (k : codec) (debug : bool) (junk : byte) (v : env) (b : builder St Er) (x out1 out2 : list byte) (st : St),
  zlen out1 = zlen out2 -> let c := big_endian_cpu debug junk in
  same_call (List.length x) (be_transform_slice_with_details show k c v b x out1 st) (be_transform_slice_with_details show k c v b x out2 st).
Proof. intros St Er show k d j v b x out1 out2 st L. exact (be_old_builder show (big_endian_cpu d j) v x out1 out2 st (big_endian_ok d j) L k b). Qed.
Print Assumptions C98_be_builders.

Example C98_be_met : let out := repeat x00 (List.length file1) in zlen file1 = zlen out /\ file1 <> out /\
  (exists s y1 y2 st, be_transform_bc1_auto (big_endian_cpu true x5a) roomy counts true (texture 32) (texture 40) 0 = Ok (ROk s, y1, st) /\
    be_transform_bc1_auto (big_endian_cpu true x5a) roomy counts true (texture 32) (repeat x00 32) 0 = Ok (ROk s, y2, st) /\ y1 <> y2) /\
  exists y, be_dds_transform_bundle (fun _ : unit => EmptyString) (big_endian_cpu false x00) env64 (manual CBc1) file1 file1 tt = Ok (ROk tt, y, tt) /\
    be_dds_transform_bundle (fun _ : unit => EmptyString) (big_endian_cpu false x00) env64 (manual CBc1) file1 out tt = Ok (ROk tt, y, tt) /\
    be_dds_untransform (big_endian_cpu false x00) env64 y out = Ok (ROk tt, file1).
Proof.
  cbv zeta. split; [reflexivity|]. split; [discriminate|]. split; [do 4 eexists; split; [vm_compute; reflexivity|]; split; [vm_compute; reflexivity|discriminate]|].
  eexists. split; [vm_compute; reflexivity|]. split; vm_compute; reflexivity.
Qed.
