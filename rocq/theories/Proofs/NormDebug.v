(** The normalising functions in debug and release builds, for any buffers (C95). *)
From Verif Require Import Base.Bytes Base.Res Model.Color565 Model.Kernel Model.Decode Model.Normalize Spec.Release Proofs.ReleaseFacts.

Lemma agree_assert : forall A c why (k k' : unit -> res A), same_or_panics (k tt) (k' tt) ->
  same_or_panics (do x <- debug_assert true c why ;; k x) (do x <- debug_assert false c why ;; k' x).
Proof. intros A [] why k k' H; [exact H|]. right. eexists. reflexivity. Qed.
Lemma agree_then : forall A B (a a' : res A) (f : A -> res B), same_or_panics a a' -> same_or_panics (bind a f) (bind a' f).
Proof. intros A B a a' f H. apply agree_bind; [exact H|]. intros x _. apply agree_refl. Qed.

Lemma bc1_impl_agree : forall p len h s, same_or_panics (bc1_impl true p len h s) (bc1_impl false p len h s).
Proof. intros. apply agree_assert. apply agree_refl. Qed.
Lemma bc2_impl_agree : forall p len h s, same_or_panics (bc2_impl true p len h s) (bc2_impl false p len h s).
Proof. intros. apply agree_assert. apply agree_refl. Qed.
Lemma bc3_impl_agree : forall p len h s, same_or_panics (bc3_impl true p len h s) (bc3_impl false p len h s).
Proof. intros. apply agree_assert. apply agree_refl. Qed.

Lemma norm_debug : forall inp out outs len mode amode m,
  same_or_panics (bc1_normalize_blocks true inp out len mode m) (bc1_normalize_blocks false inp out len mode m) /\
  same_or_panics (bc2_normalize_blocks true inp out len mode m) (bc2_normalize_blocks false inp out len mode m) /\
  same_or_panics (bc3_normalize_blocks true inp out len amode mode m) (bc3_normalize_blocks false inp out len amode mode m) /\
  same_or_panics (bc1_normalize_blocks_all_modes true inp outs len m) (bc1_normalize_blocks_all_modes false inp outs len m) /\
  same_or_panics (bc2_normalize_blocks_all_modes true inp outs len m) (bc2_normalize_blocks_all_modes false inp outs len m) /\
  same_or_panics (bc3_normalize_blocks_all_modes true inp outs len m) (bc3_normalize_blocks_all_modes false inp outs len m).
Proof.
  intros inp out outs len mode amode m. split; [|split; [|split; [|split; [|split]]]].
  - unfold bc1_normalize_blocks. apply agree_assert. destruct mode; [apply agree_refl|apply agree_then, bc1_impl_agree..].
  - unfold bc2_normalize_blocks. apply agree_assert, agree_assert. destruct mode; [apply agree_refl|apply agree_then, bc2_impl_agree..].
  - unfold bc3_normalize_blocks. apply agree_assert, agree_assert. destruct amode, mode; [apply agree_refl|apply agree_then, bc3_impl_agree..].
  - unfold bc1_normalize_blocks_all_modes. apply agree_assert, agree_assert. apply agree_then, bc1_impl_agree.
  - unfold bc2_normalize_blocks_all_modes. apply agree_assert, agree_assert. apply agree_then, bc2_impl_agree.
  - unfold bc3_normalize_blocks_all_modes. apply agree_assert, agree_assert. apply agree_then, bc3_impl_agree.
Qed.
