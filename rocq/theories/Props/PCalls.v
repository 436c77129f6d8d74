(** C90: mistaken calls. A call with the wrong codec, the wrong settings, in the
    wrong direction or on a machine of the wrong byte order reports no error; but
    no history of such calls loses anything. *)
From Verif Require Import Base.Bytes Base.Res Model.Color565 Model.Kernel Model.Transform Model.BigEndian Model.BeTransform Model.Calls.
From Verif Require Import Spec.Files Spec.Calls Proofs.Calls Props.Cases.
Open Scope string_scope.
Open Scope list_scope.
Open Scope Z_scope.

(** Whatever the calls are, on a texture of whole blocks each succeeds and keeps the length. *)
Theorem C90_always_succeeds : forall (ks : list call) (x : list byte),
  x <> [] -> Forall (allowed (zlen x)) ks ->
  exists z, performs ks x = Ok (ROk z) /\ zlen z = zlen x.
Proof. exact always_succeeds. Qed.
Print Assumptions C90_always_succeeds.

(** Making the opposite calls in the opposite order gives the texture back. *)
Theorem C90_taken_back : forall (ks bs : list call) (x z : list byte),
  x <> [] -> Forall (allowed (zlen x)) ks -> Forall (allowed (zlen x)) bs -> Forall2 takes_back ks bs ->
  performs ks x = Ok (ROk z) -> performs (rev bs) z = Ok (ROk x).
Proof. exact taken_back. Qed.
Print Assumptions C90_taken_back.

(** Two different textures of one length stay different. *)
Theorem C90_never_merged : forall (ks ks' : list call) (x x' z : list byte),
  x <> [] -> zlen x' = zlen x -> Forall (allowed (zlen x)) ks -> Forall (allowed (zlen x)) ks' -> Forall2 alike ks ks' ->
  performs ks x = Ok (ROk z) -> performs ks' x' = Ok (ROk z) -> x = x'.
Proof. exact never_merged. Qed.
Print Assumptions C90_never_merged.

(** The machines that do the work do not matter, apart from their byte order; nor
    do the old contents or the lengths of the output slices. *)
Theorem C90_same_anywhere : forall (ks ks' : list call) (x : list byte),
  x <> [] -> Forall (allowed (zlen x)) ks -> Forall (allowed (zlen x)) ks' -> Forall2 alike ks ks' ->
  performs ks x = performs ks' x.
Proof. exact same_anywhere. Qed.
Print Assumptions C90_same_anywhere.

(** A texture is transformed as BC1 on one machine, restored as BC3 with other
    settings, restored again as BC2 on a big-endian machine, and transformed there. *)
Definition mistakes : list call :=
  [Call (Little fast_cpu) (Bc1 (Settings V1 true)) false (texture 70);
   Call (Little debug_cpu) (Bc3 (Settings3 V2 true false)) true (texture 64);
   Call (Big true x5a) (Bc2 (Settings V3 false)) true (texture 65);
   Call (Big false x00) (Bc1 (Settings V2 true)) false (texture 64)].
Definition remedy : list call :=
  [Call (Little slow_cpu) (Bc1 (Settings V1 true)) true (texture 64);
   Call (Little fast_cpu) (Bc3 (Settings3 V2 true false)) false (texture 80);
   Call (Big false x01) (Bc2 (Settings V3 false)) false (texture 64);
   Call (Big true xff) (Bc1 (Settings V2 true)) true (texture 64)].
Lemma mistakes_allowed : Forall (allowed (zlen (texture 64))) mistakes.
Proof.
  unfold mistakes. repeat apply Forall_cons; [..|apply Forall_nil];
    (split; [first [exact fast_supported | exact debug_supported | exact Logic.I] | split; vm_compute; [reflexivity | intros H; discriminate H]]).
Qed.
Lemma remedy_allowed : Forall (allowed (zlen (texture 64))) remedy.
Proof.
  unfold remedy. repeat apply Forall_cons; [..|apply Forall_nil];
    (split; [first [exact fast_supported | exact slow_supported | exact Logic.I] | split; vm_compute; [reflexivity | intros H; discriminate H]]).
Qed.
(** the hypotheses of C90_always_succeeds and C90_taken_back hold; the mistakes do
    change the texture, and the remedy gives it back *)
Example C90_taken_back_met : texture 64 <> [] /\ Forall (allowed (zlen (texture 64))) mistakes /\ Forall (allowed (zlen (texture 64))) remedy /\ Forall2 takes_back mistakes remedy.
Proof.
  split; [vm_compute; intros H; discriminate H|]. split; [exact mistakes_allowed|]. split; [exact remedy_allowed|].
  unfold mistakes, remedy. repeat apply Forall2_cons; [..|apply Forall2_nil]; repeat split.
Qed.
Definition answer {E} (r : res (result (list byte) E)) : list byte := match r with Ok (ROk z) => z | _ => [] end.
Example C90_taken_back_example : let x := texture 64 in let z := answer (performs mistakes x) in
  performs mistakes x = Ok (ROk z) /\ z <> x /\ performs (rev remedy) z = Ok (ROk x).
Proof. split; [vm_compute; reflexivity|]. split; [vm_compute; intros H; discriminate H|vm_compute; reflexivity]. Qed.

(** the same mistakes elsewhere *)
Definition elsewhere : list call :=
  [Call (Little slow_cpu) (Bc1 (Settings V1 true)) false (texture 64);
   Call (Little fast_cpu) (Bc3 (Settings3 V2 true false)) true (texture 66);
   Call (Big false x00) (Bc2 (Settings V3 false)) true (texture 64);
   Call (Big true x01) (Bc1 (Settings V2 true)) false (texture 99)].
Example C90_same_anywhere_met : texture 64 <> [] /\ Forall (allowed (zlen (texture 64))) mistakes /\ Forall (allowed (zlen (texture 64))) elsewhere /\ Forall2 alike mistakes elsewhere.
Proof.
  split; [vm_compute; intros H; discriminate H|]. split; [exact mistakes_allowed|]. split.
  - unfold elsewhere. repeat apply Forall_cons; [..|apply Forall_nil];
      (split; [first [exact fast_supported | exact slow_supported | exact Logic.I] | split; vm_compute; [reflexivity | intros H; discriminate H]]).
  - unfold mistakes, elsewhere. repeat apply Forall2_cons; [..|apply Forall2_nil]; repeat split.
Qed.
