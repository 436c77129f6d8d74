(** A library for the examples about what Zstandard prefers. *)
From Verif Require Import Base.Bytes Base.Res Model.Kernel Model.Transform Model.Auto Model.Zstd Spec.Estimator Spec.Zstd Spec.Answers Spec.ZstdSizes Props.Cases Props.CasesAuto.
From Coq Require Import ZifyBool.
Open Scope list_scope.
Open Scope Z_scope.

(** The number of bytes that differ from the one after them, at most 2^40. *)
Fixpoint runs_in (d : list byte) : Z := match d with a :: (b :: _) as r => (if Byte.eqb a b then 0 else 1) + runs_in r | [_] => 1 | [] => 0 end.
Lemma runs_le : forall d, 0 <= runs_in d <= zlen d.
Proof.
  induction d as [|a [|b d] IH]; [split; discriminate|unfold zlen; cbn; lia|]. cbn [runs_in] in *. unfold zlen in *. cbn [List.length] in *. destruct (Byte.eqb a b); lia.
Qed.
Definition level_size (lv : Z) (d : list byte) : Z := Z.min (2 ^ 40) (if lv =? 1 then runs_in d else zlen d).
(** At level 1 it compresses to [runs_in] bytes, at others it copies. Its state is
    the level of the context in use. *)
Definition levelled : zstd_lib Z := {|
  z_compress_bound := fun n => n + 1;
  z_create_cctx := fun st => (Some 7, 0);
  z_set_parameter := fun _ p x st => match p with ZCompressionLevel => x | _ => st end;
  z_compress2 := fun _ n d st => (if zlen d <=? n then level_size st d else -70, st);
  z_free_cctx := fun _ st => 0;
  z_is_error := fun r => r <? 0;
  z_get_error_code := fun r => - r |}.
Lemma levelled_promise : keeps_promise levelled.
Proof.
  split; [intros st; discriminate|]. split; [|intros a b H; cbn; lia].
  intros k n d s H. cbn [z_compress_bound z_compress2 z_is_error levelled fst] in *. replace (zlen d <=? n) with true by lia.
  unfold level_size. pose proof (runs_le d). destruct (s =? 1); lia.
Qed.
Lemma levelled_sizes : forall v, 2 ^ 42 <= usize_max v -> compresses_to levelled v level_size.
Proof.
  intros v U. split; [|split; [|lia]].
  - intros st c st1 lv n d E H. cbn [z_compress_bound z_compress2 z_set_parameter levelled fst] in *. replace (zlen d <=? n) with true by lia. reflexivity.
  - intros c n d st _. cbn [z_compress2 levelled fst]. destruct (zlen d <=? n); [|lia]. unfold level_size. lia.
Qed.
Lemma levelled_fits : forall k n d s, 2 * fst (z_compress2 levelled k n d s) <= usize_max roomy \/ z_is_error levelled (fst (z_compress2 levelled k n d s)) = true.
Proof.
  intros k n d s. left. cbn [z_compress2 levelled fst usize_max roomy]. destruct (zlen d <=? n); [|lia]. unfold level_size. lia.
Qed.

(** An estimator that answers the same question differently every time. *)
Definition fickle : estimator Z unit := Estimator (fun st n => (ROk n, st + 1)) (fun st d n => (ROk (st * 5 mod 7), st + 1)).
Lemma fickle_fits : forall st d n z st', estimate_compressed_size fickle st d n = (ROk z, st') -> 2 * z < usize_max roomy.
Proof. intros st d n z st' H. cbn [fickle estimate_compressed_size] in H. injection H as <- _. cbn [usize_max roomy]. lia. Qed.
Lemma fickle_fits_once : forall st d n z st', estimate_compressed_size fickle st d n = (ROk z, st') -> z < usize_max roomy.
Proof. intros st d n z st' H. cbn [fickle estimate_compressed_size] in H. injection H as <- _. cbn [usize_max roomy]. lia. Qed.
