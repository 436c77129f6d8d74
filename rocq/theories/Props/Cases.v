(** Concrete machines and textures for the examples beside the theorems. An
    example called [X_met] shows values for which all hypotheses of theorem [X]
    hold together. *)
From Verif Require Import Base.Bytes Base.Res Model.Kernel Spec.Files.

(** An x86-64 machine with every extension, in a release and in a debug build,
    and a debug build for a machine with no SIMD. *)
Definition fast_cpu : cfg := Cfg false X86_64 false true true true true true true true x00.
Definition debug_cpu : cfg := Cfg true X86_64 false true true true true true true true x5a.
Definition slow_cpu : cfg := Cfg true OtherArch false false false false false false false false xff.
Lemma fast_ok : cpu_ok fast_cpu.
Proof. constructor; reflexivity. Qed.
Lemma debug_ok : cpu_ok debug_cpu.
Proof. constructor; reflexivity. Qed.
Lemma slow_ok : cpu_ok slow_cpu.
Proof. constructor; intros H; discriminate H. Qed.
Lemma fast_supported : supported fast_cpu.
Proof. split; [exact fast_ok|reflexivity]. Qed.
Lemma debug_supported : supported debug_cpu.
Proof. split; [exact debug_ok|reflexivity]. Qed.
Lemma slow_supported : supported slow_cpu.
Proof. split; [exact slow_ok|intros H; discriminate H]. Qed.

(** [n] bytes, no two neighbours equal *)
Definition texture (n : nat) : list byte := map (fun i => lo8 (i * 37 + 11)) (zseq 0 n).
(** the buffer a call returned *)
Definition left_in {E} (r : res (E * list byte)) : list byte := match r with Ok (_, y) => y | _ => [] end.

(** Checks one hypothesis by computation. *)
Ltac met1 :=
  first
  [ exact fast_ok | exact debug_ok | exact slow_ok | exact fast_supported | exact debug_supported | exact slow_supported
  | vm_compute; reflexivity
  | vm_compute; let H := fresh in intros H; discriminate H
  | vm_compute; let H := fresh in let G := fresh in intros G H; discriminate H
  | vm_compute; let H := fresh in let G := fresh in intros G H; discriminate G
  | vm_compute; let H := fresh in let F := fresh in let G := fresh in intros G F H; discriminate H
  | vm_compute; lia
  | solve [vm_compute; intuition (congruence || discriminate)]
  | solve [repeat (eexists; split; [vm_compute; reflexivity|]); reflexivity]
  | solve [repeat constructor; vm_compute; intuition (congruence || lia)] ].
Ltac met := cbv zeta; repeat lazymatch goal with |- _ /\ _ => split end; met1.
