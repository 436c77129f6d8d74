(** C98: what the output buffer held before the call makes no difference. *)
From Verif Require Import Base.Bytes Base.Res Model.Color565 Model.Kernel Model.Transform Model.Auto Model.Builders Model.Embed Model.Bundle Model.Dds
  Spec.Layout Spec.Estimator Spec.Files Spec.OldContents Proofs.DdsHandler Proofs.OldContents Props.Cases Props.CasesAuto Props.PDds.
Open Scope list_scope.
Open Scope Z_scope.

(** Automatic choice, with any estimator, also one with memory: it is shown only transformed bytes, never what was in the buffer, so the
    two calls return the same, and the buffers may also be of different sizes. *)
Theorem C98_bc1_auto : forall (St Er : Type) (c : cfg) (v : env) (e : estimator St Er) (all : bool) (x out1 out2 : list byte) (st : St),
  supported c -> (c_debug c = true -> x <> []) -> zlen x <= zlen out1 -> zlen x <= zlen out2 ->
  same_call (List.length x) (transform_bc1_auto c v e all x out1 st) (transform_bc1_auto c v e all x out2 st).
Proof. intros St Er c v e all x out1 out2 st K D. exact (old_bc1 c v e all x out1 out2 st K D). Qed.
Print Assumptions C98_bc1_auto.
Theorem C98_bc2_auto : forall (St Er : Type) (c : cfg) (v : env) (e : estimator St Er) (all : bool) (x out1 out2 : list byte) (st : St),
  supported c -> zlen x <= zlen out1 -> zlen x <= zlen out2 ->
  same_call (List.length x) (transform_bc2_auto c v e all x out1 st) (transform_bc2_auto c v e all x out2 st).
Proof. intros St Er c v e all x out1 out2 st K. exact (old_bc2 c v e all x out1 out2 st K). Qed.
Print Assumptions C98_bc2_auto.
Theorem C98_bc3_auto : forall (St Er : Type) (c : cfg) (v : env) (e : estimator St Er) (all : bool) (x out1 out2 : list byte) (st : St),
  supported c -> (c_debug c = true -> x <> []) -> zlen x <= zlen out1 -> zlen x <= zlen out2 ->
  (forall st d n z st', estimate_compressed_size e st d n = (ROk z, st') -> 2 * z <= usize_max v) ->
  same_call (List.length x) (transform_bc3_auto c v e all x out1 st) (transform_bc3_auto c v e all x out2 st).
Proof. intros St Er c v e all x out1 out2 st K D. exact (old_bc3 c v e all x out1 out2 st K D). Qed.
Print Assumptions C98_bc3_auto.

(** Whole files: transforming with any bundle and restoring, for any input at all. In debug builds the texture must not be empty. *)
Theorem C98_dds_transform : forall (St Er : Type) (show : Er -> string) (c : cfg) (v : env) (t : bundle St Er) (x out1 out2 : list byte) (st : St),
  supported c -> (c_debug c = true -> forall i, parse_dds true x = Ok (Some i) -> 0 < i_data_length i) -> zlen out1 = zlen out2 ->
  same_call (List.length x) (dds_transform_bundle show c v t x out1 st) (dds_transform_bundle show c v t x out2 st).
Proof.
  intros St Er show c v t x out1 out2 st K D L. apply old_dds; [exact K|exact L|]. intros i P. split.
  - unfold parse_dds in P. destruct (likely_dds x); [|discriminate P]. apply parse_facts in P. lia.
  - intros Dc. apply (D Dc). rewrite <- Dc. exact P.
Qed.
Print Assumptions C98_dds_transform.
Theorem C98_dds_restore : forall (c : cfg) (v : env) (x out1 out2 : list byte),
  supported c -> (c_debug c = true -> forall i, parse_dds_ignore_magic true x = Ok (Some i) -> 0 < i_data_length i) -> zlen out1 = zlen out2 ->
  same_plain_call (List.length x) (dds_untransform c v x out1) (dds_untransform c v x out2).
Proof. intros c v x out1 out2 K D L. exact (old_undds c v K x out1 out2 L D). Qed.
Print Assumptions C98_dds_restore.
(** The same for the functions that handle a texture without its file. *)
Theorem C98_dispatch : forall (St Er : Type) (show : Er -> string) (c : cfg) (v : env) (t : bundle St Er) (f : transform_format) (h : header) (x out1 out2 : list byte) (st : St),
  supported c -> (c_debug c = true -> x <> []) -> zlen out1 = zlen out2 ->
  same_call (List.length x) (dispatch_transform show c v t f x out1 st) (dispatch_transform show c v t f x out2 st) /\
  same_plain_call (List.length x) (dispatch_untransform c h x out1) (dispatch_untransform c h x out2).
Proof.
  intros St Er show c v t f h x out1 out2 st K D L. split; [exact (old_dispatch show c v x out1 out2 st K D L t f)|exact (old_undispatch c x out1 out2 K D L h)].
Qed.
Print Assumptions C98_dispatch.
(** The builders, with settings given by hand or with an automatic choice. *)
Theorem C98_builders : forall (St Er : Type) (show : Er -> string) (k : codec) (c : cfg) (v : env) (b : builder St Er) (x out1 out2 : list byte) (st : St),
  supported c -> (c_debug c = true -> x <> []) -> zlen out1 = zlen out2 ->
  same_call (List.length x) (transform_slice_with_details show k c v b x out1 st) (transform_slice_with_details show k c v b x out2 st).
Proof. intros St Er show k c v b x out1 out2 st K D L. exact (old_builder show c v x out1 out2 st K D L k b). Qed.
Print Assumptions C98_builders.

(** After an error the buffers may differ: a search whose estimator fails before anything was tried leaves them as they were. *)
Theorem C98_after_error_refuted : exists (e : estimator unit unit) (x out1 out2 y1 y2 : list byte) r,
  zlen out1 = zlen x /\ zlen out2 = zlen x /\
  transform_bc1_auto fast_cpu roomy e true x out1 tt = Ok (RErr r, y1, tt) /\ transform_bc1_auto fast_cpu roomy e true x out2 tt = Ok (RErr r, y2, tt) /\ y1 <> y2.
Proof.
  exists (Estimator (fun st _ => (RErr tt, st)) (fun st _ _ => (ROk 0, st))), (texture 16), (texture 16), (repeat x00 16). do 3 eexists.
  split; [reflexivity|]. split; [reflexivity|]. split; [vm_compute; reflexivity|]. split; [vm_compute; reflexivity|discriminate].
Qed.
Print Assumptions C98_after_error_refuted.

(** An estimator that counts its questions, buffers of other contents and another size; a file with bytes after its texture. *)
Example C98_auto_met : supported debug_cpu /\ texture 32 <> [] /\
  exists s y1 y2 st, transform_bc1_auto debug_cpu roomy counts true (texture 32) (texture 40) 0 = Ok (ROk s, y1, st) /\
    transform_bc1_auto debug_cpu roomy counts true (texture 32) (repeat x00 32) 0 = Ok (ROk s, y2, st) /\ y1 <> y2.
Proof. split; [met1|]. split; [discriminate|]. do 4 eexists. split; [vm_compute; reflexivity|]. split; [vm_compute; reflexivity|discriminate]. Qed.
Example C98_dds_met : let out := repeat x00 (List.length file1) in
  supported debug_cpu /\ (c_debug debug_cpu = true -> forall i, parse_dds true file1 = Ok (Some i) -> 0 < i_data_length i) /\ zlen file1 = zlen out /\ file1 <> out /\
  exists y, dds_transform_bundle (fun _ : unit => EmptyString) debug_cpu env64 (manual CBc1) file1 file1 tt = Ok (ROk tt, y, tt) /\
    dds_transform_bundle (fun _ : unit => EmptyString) debug_cpu env64 (manual CBc1) file1 out tt = Ok (ROk tt, y, tt) /\
    (forall i, parse_dds_ignore_magic true y = Ok (Some i) -> 0 < i_data_length i) /\
    dds_untransform debug_cpu env64 y out = Ok (ROk tt, file1).
Proof.
  cbv zeta. split; [met1|]. split; [intros _ i H; vm_compute in H; injection H as <-; reflexivity|]. split; [reflexivity|]. split; [discriminate|].
  eexists. split; [vm_compute; reflexivity|]. split; [vm_compute; reflexivity|]. split; [|vm_compute; reflexivity].
  intros i H. vm_compute in H. injection H as <-. reflexivity.
Qed.
