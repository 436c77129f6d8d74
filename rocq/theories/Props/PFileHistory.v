(** C92: histories of transforming and restoring a DDS file (Model/FileHistory.v), on computers of one byte order (Spec/FileHistory.v). *)
From Verif Require Import Base.Bytes Base.Res Model.Color565 Model.Ycc Model.Kernel Model.Transform Model.Auto Model.Builders Model.Embed Model.Bundle Model.Dds
  Model.BigEndian Model.BeTransform Model.BeFiles Model.FileHistory
  Spec.Layout Spec.Estimator Spec.Header Spec.Files Spec.Dds Spec.Release Spec.AnyFile Spec.FileHistory Proofs.BigEndianFacts Proofs.FileHistory
  Props.Cases Props.CasesAuto Props.PDds Props.PAnyFile.
From Coq Require Import String.
Open Scope list_scope.
Open Scope Z_scope.

(** Start with a DDS file [x], do anything in any order and let calls fail or
    panic: the file has its length; if it has the DDS magic it is [x]; if not, every
    release build restores [x] from it, and a debug build does or panics. *)
Theorem C92_never_lost : forall (order : bool) (l : list (computer * action)) (x : list byte), one_order order (zlen x) l -> has_magic x = true ->
  let f := acts l x in
  zlen f = zlen x /\ (has_magic f = true -> f = x) /\
  (has_magic f = false -> forall (p : computer) (out : list byte), little p = order -> fit (zlen x) p -> zlen out = zlen x ->
     same_or_panics (restore_on p f out) (Ok (ROk tt, x)) /\ (debug_build p = false -> restore_on p f out = Ok (ROk tt, x))).
Proof. exact never_lost. Qed.
Print Assumptions C92_never_lost.

(** In such a history transforming and restoring take turns: a transformed file is
    not transformed again, a restored one not restored again. *)
Theorem C92_takes_turns : forall (order : bool) (l : list (computer * action)) (x : list byte) (p : computer), one_order order (zlen x) l -> has_magic x = true ->
  little p = order -> fit (zlen x) p ->
  let f := acts l x in
  (has_magic f = false -> forall (St Er : Type) (show : Er -> string) (t : bundle St Er) (st : St) (out : list byte), act p (Transforming St Er show t st out) f = f) /\
  (has_magic f = true -> forall out : list byte, act p (Restoring out) f = f) /\
  (forall a : action, act p a f <> f -> has_magic (act p a f) = negb (has_magic f)).
Proof. exact takes_turns. Qed.
Print Assumptions C92_takes_turns.

(** Two machines, five actions of which two do nothing. *)
Definition pc1 : computer := LittleOne debug_cpu env64.
Definition pc2 : computer := LittleOne slow_cpu env32.
Definition with_bundle (t : bundle unit unit) (out : list byte) : action := Transforming unit unit (fun _ => EmptyString) t tt out.
Definition history1 : list (computer * action) :=
  [(pc1, Restoring file1); (pc1, with_bundle (manual CBc1) file1); (pc2, with_bundle (manual CBc1) (numbers 163)); (pc2, Restoring (numbers 163)); (pc2, with_bundle (manual CBc1) (numbers 163))].
Example C92_never_lost_met : one_order true (zlen file1) history1 /\ has_magic file1 = true /\ has_magic (acts history1 file1) = false /\
  has_magic (acts (firstn 4 history1) file1) = true /\ acts (firstn 2 history1) file1 <> file1 /\ acts (firstn 1 history1) file1 = file1 /\
  acts (firstn 3 history1) file1 = acts (firstn 2 history1) file1.
Proof.
  split.
  - assert (F1 : fit (zlen file1) pc1) by (split; [exact debug_supported|split; vm_compute; discriminate]).
    assert (F2 : fit (zlen file1) pc2) by (split; [split; [constructor; intros H; discriminate H|intros H; discriminate H]|split; vm_compute; discriminate]).
    repeat (constructor; [split; [reflexivity|assumption]|]). constructor.
  - split; [reflexivity|]. split; [vm_compute; reflexivity|]. split; [vm_compute; reflexivity|]. split; [vm_compute; discriminate|]. split; vm_compute; reflexivity.
Qed.

(** What was restored can be transformed back: take any bytes [z] that restoring
    accepts, whoever made them. If the DDS headers state the format that the header
    word asks for, then transforming the result with the settings of the word gives
    [z] again, with the reserved bits of the word cleared. *)
Theorem C92_given_back : forall (p : computer) (z out o : list byte), fit (zlen z) p -> zlen out = zlen z -> restore_on p z out = Ok (ROk tt, o) ->
  exists k s, request_of (word z 0) = Restore k s /\ has_magic o = true /\ zlen o = zlen z /\
    (stated_format z = match k with CBc1 => DBC1 | CBc2 => DBC2 end ->
     forall (St Er : Type) (show : Er -> string) (st : St) (p2 : computer) (out2 : list byte), little p2 = little p -> fit (zlen z) p2 -> zlen out2 = zlen z ->
       let again := transform_on p2 show (installed [WithManual (St := St) (Er := Er) k (ManualBuilder s)]) o out2 st in
       let z' := with_word (u32_bytes (codec_header k s)) z in
       same_or_panics again (Ok (ROk tt, z', st)) /\ (debug_build p2 = false -> again = Ok (ROk tt, z', st))).
Proof. exact given_back. Qed.
Print Assumptions C92_given_back.

(** Two files that are restored to the same file differ at most in their header words,
    if these ask for the same codec and settings. *)
Theorem C92_never_merged : forall (p1 p2 : computer) (z1 z2 out1 out2 o : list byte), little p1 = little p2 -> fit (zlen z1) p1 -> fit (zlen z2) p2 ->
  zlen out1 = zlen z1 -> zlen out2 = zlen z2 -> restore_on p1 z1 out1 = Ok (ROk tt, o) -> restore_on p2 z2 out2 = Ok (ROk tt, o) ->
  bits (word z1 0) 0 9 = bits (word z2 0) 0 9 -> skipn 4 z1 = skipn 4 z2.
Proof. exact never_merged. Qed.
Print Assumptions C92_never_merged.

(** The bytes of a plain file with the header word of BC1, variant 2, and with reserved bits set: nobody transformed it. *)
Definition found : list byte := with_word [x00; x81; x00; xff] file1.
Example C92_given_back_met : fit (zlen found) pc1 /\ fit (zlen found) pc2 /\ zlen (numbers 163) = zlen found /\
  (exists o, restore_on pc1 found (numbers 163) = Ok (ROk tt, o) /\ o <> file1) /\
  (exists k s, request_of (word found 0) = Restore k s /\ stated_format found = match k with CBc1 => DBC1 | CBc2 => DBC2 end).
Proof.
  split; [split; [exact debug_supported|split; vm_compute; discriminate]|].
  split; [split; [split; [constructor; intros H; discriminate H|intros H; discriminate H]|split; vm_compute; discriminate]|].
  split; [reflexivity|]. split; [eexists; split; [vm_compute; reflexivity|discriminate]|]. do 2 eexists. split; vm_compute; reflexivity.
Qed.
Example C92_never_merged_met : let found2 := with_word [x00; x01; x00; x00] file1 in
  bits (word found 0) 0 9 = bits (word found2 0) 0 9 /\ restore_on pc1 found (numbers 163) = restore_on pc2 found2 file1 /\
  exists o, restore_on pc1 found (numbers 163) = Ok (ROk tt, o).
Proof. cbv zeta. split; [vm_compute; reflexivity|]. split; [vm_compute; reflexivity|]. eexists. vm_compute. reflexivity. Qed.

(** "Of one byte order" is needed: transforming on a little-endian computer and
    restoring on a big-endian one succeeds with another file. *)
Theorem C92_mixed_refuted : exists (p1 p2 : computer) (a1 a2 : action) (x : list byte), fit (zlen x) p1 /\ fit (zlen x) p2 /\ has_magic x = true /\
  let f := acts [(p1, a1); (p2, a2)] x in has_magic f = true /\ f <> x.
Proof.
  exists pc1, (BigOne false x00 env64), (with_bundle (manual CBc1) file1), (Restoring file1), file1.
  split; [split; [exact debug_supported|split; vm_compute; discriminate]|]. split; [split; vm_compute; discriminate|]. split; [reflexivity|].
  cbv zeta. split; [vm_compute; reflexivity|vm_compute; discriminate].
Qed.
Print Assumptions C92_mixed_refuted.
