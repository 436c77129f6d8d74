(** Which calls of the normalising functions stop in builds with debug assertions (C94). *)
From Coq Require Import ZifyBool.
From Verif Require Import Base.Bytes Base.Res Model.Color565 Model.Decode Model.Normalize Spec.Pixels Spec.Normalize Spec.Overlap
  Proofs.NormalizeFacts Proofs.NormDerived.

Lemma checked : forall A c why (k : unit -> res A), (do x <- debug_assert true c why ;; k x) = if c then k tt else Panic why.
Proof. intros A [] why k; reflexivity. Qed.
Lemma overlap_seen : forall inp out len, ~ clear_of len inp out -> same_or_apart inp out len = false.
Proof. intros inp out len H. unfold same_or_apart, clear_of, apart in *. lia. Qed.
Lemma whole_seen : forall n len, len mod n <> 0 -> (len mod n =? 0) = false.
Proof. intros. lia. Qed.
Lemma some_overlap : forall (p : Z -> bool) l o, In o l -> p o = false -> forallb p l = false.
Proof.
  intros p l o I F. destruct (forallb p l) eqn:E; [|reflexivity]. rewrite forallb_forall in E. rewrite (E o I) in F. discriminate F.
Qed.

Lemma bc1_one : forall m inp out len mode, within m inp len -> within m out len ->
  (clear_of len inp out /\ (mode = CNone \/ len mod 8 = 0) -> exists m', bc1_normalize_blocks true inp out len mode m = Ok m') /\
  (~ (clear_of len inp out /\ (mode = CNone \/ len mod 8 = 0)) -> stops (bc1_normalize_blocks true inp out len mode m)).
Proof.
  intros m inp out len mode WI WO. split.
  - intros [C [->|M]].
    + unfold bc1_normalize_blocks. rewrite same_or_apart_ok by exact C. rewrite checked.
      destruct (copy_result 8 m inp out len) as (m' & E & _); [lia|exact WI|exact WO|exact C|]. exists m'. exact E.
    + destruct (lC37_bc1 true m inp out len mode WI WO M C) as (m' & E & _). exists m'. exact E.
  - intros N. unfold bc1_normalize_blocks. rewrite checked. destruct (same_or_apart inp out len) eqn:S; [|eexists; reflexivity].
    assert (C : clear_of len inp out) by (unfold same_or_apart, clear_of, apart in *; lia).
    assert (MN : mode <> CNone) by (intros ->; apply N; auto). assert (M : len mod 8 <> 0) by (intros M; apply N; auto).
    destruct mode; [congruence| |]; unfold bc1_impl; rewrite checked, whole_seen by exact M; eexists; reflexivity.
Qed.

Lemma bc2_one : forall m inp out len mode, within m inp len -> within m out len ->
  (clear_of len inp out /\ len mod 16 = 0 -> exists m', bc2_normalize_blocks true inp out len mode m = Ok m') /\
  (~ (clear_of len inp out /\ len mod 16 = 0) -> stops (bc2_normalize_blocks true inp out len mode m)).
Proof.
  intros m inp out len mode WI WO. split.
  - intros [C M]. destruct (proj1 (lC38 true m inp out len WI WO M C) mode) as (m' & E & _). exists m'. exact E.
  - intros N. unfold bc2_normalize_blocks. rewrite checked. destruct (len mod 16 =? 0) eqn:M; [|eexists; reflexivity].
    rewrite checked, overlap_seen; [eexists; reflexivity|]. intros C. apply N. split; [exact C|lia].
Qed.

Lemma bc3_one : forall m inp out len amode cmode, within m inp len -> within m out len ->
  (clear_of len inp out /\ len mod 16 = 0 -> exists m', bc3_normalize_blocks true inp out len amode cmode m = Ok m') /\
  (~ (clear_of len inp out /\ len mod 16 = 0) -> stops (bc3_normalize_blocks true inp out len amode cmode m)).
Proof.
  intros m inp out len amode cmode WI WO. split.
  - intros [C M]. destruct (proj2 (lC38 true m inp out len WI WO M C) amode cmode) as (m' & E & _). exists m'. exact E.
  - intros N. unfold bc3_normalize_blocks. rewrite checked. destruct (len mod 16 =? 0) eqn:M; [|eexists; reflexivity].
    rewrite checked, overlap_seen; [eexists; reflexivity|]. intros C. apply N. split; [exact C|lia].
Qed.

Lemma all_modes_stop : forall m inp len outs o, In o outs ->
  (~ clear_of len inp o \/ len mod 8 <> 0 -> stops (bc1_normalize_blocks_all_modes true inp outs len m)) /\
  (~ clear_of len inp o \/ len mod 16 <> 0 -> stops (bc2_normalize_blocks_all_modes true inp outs len m)) /\
  (~ apart len inp o \/ len mod 16 <> 0 -> stops (bc3_normalize_blocks_all_modes true inp outs len m)).
Proof.
  intros m inp len outs o I. split; [|split]; intros H.
  - unfold bc1_normalize_blocks_all_modes. rewrite checked. destruct (len mod 8 =? 0) eqn:M; [|eexists; reflexivity].
    rewrite checked, (some_overlap _ _ o I); [eexists; reflexivity|]. apply overlap_seen. destruct H; [assumption|lia].
  - unfold bc2_normalize_blocks_all_modes. rewrite checked. destruct (len mod 16 =? 0) eqn:M; [|eexists; reflexivity].
    rewrite checked, (some_overlap _ _ o I); [eexists; reflexivity|]. apply overlap_seen. destruct H; [assumption|lia].
  - unfold bc3_normalize_blocks_all_modes. rewrite checked. destruct (len mod 16 =? 0) eqn:M; [|eexists; reflexivity].
    rewrite checked, (some_overlap _ _ o I); [eexists; reflexivity|]. cbv beta. unfold apart in H. lia.
Qed.

(** Without assertions the second block is overwritten with the first before it is read. *)
Lemma unchecked_overlap : forall mode, mode <> CNone -> exists m m', within m 0 16 /\ within m 8 16 /\ bc1_normalize_blocks false 0 8 16 mode m = Ok m' /\
  picture bc1_pixel (slice m' 16 8) <> picture bc1_pixel (slice m 8 8).
Proof.
  intros mode MN. exists ([x00; x00; x1f; x00; x55; x55; x55; x55] ++ [xff; xff; x01; x00; xe4; xff; xff; xff] ++ repeat x00 8).
  destruct mode; [congruence| |]; (eexists; split; [split; [lia|split; [lia|vm_compute; discriminate]]|split; [split; [lia|split; [lia|vm_compute; discriminate]]|split; [vm_compute; reflexivity|vm_compute; discriminate]]]).
Qed.
