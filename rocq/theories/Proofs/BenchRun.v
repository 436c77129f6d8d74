(** From a kernel lemma to what running the kernel writes. *)
From Verif Require Import Base.Bytes Base.Res Model.Color565 Model.Ycc Model.Kernel Model.KernelBench Model.Bench
  Proofs.KernelCheck Proofs.KernelLoop Proofs.KernelFun Proofs.Shapes Spec.YCoCg Spec.Layout
  Proofs.LayoutFacts Proofs.ShapeLayout Proofs.Families Proofs.TransformFacts Proofs.KSplit565 Proofs.Split565Facts Proofs.KBenchSplit565.
From Coq Require Import ZifyBool ZifyNat.

Definition t_good (k : Z) (layout : list byte -> list byte) (f : ptr -> ptr -> Z -> mem -> res mem) : Prop :=
  forall inp aux out a b n, 0 <= a -> 0 <= b -> 0 <= n -> a + k * n <= zlen inp -> b + k * n <= zlen out ->
  f (Ptr BIn a) (Ptr BOut b) (k * n) (Mem inp aux out) = Ok (Mem inp aux (splice out b (layout (slice inp a (k * n))))).
Definition u_good (k : Z) (layout : list byte -> list byte) (f : ptr -> ptr -> Z -> mem -> res mem) : Prop :=
  forall x inp aux out a b n, 0 <= a -> 0 <= b -> 0 <= n -> a + k * n <= zlen inp -> b + k * n <= zlen out ->
  zlen x = k * n -> slice inp a (k * n) = layout x ->
  f (Ptr BIn a) (Ptr BOut b) (k * n) (Mem inp aux out) = Ok (Mem inp aux (splice out b x)).

Ltac good_t c F fam inp aux out a b n :=
  let Q := fresh "Q" in let FM := fresh "FM" in
  pose proof F as Q; pose proof fam as FM;
  apply TSPEC_RUN in Q; [|solve [apply FM]|intros ? ? ? ? E'; cbv beta; rewrite !E'; reflexivity];
  destruct (total_t _ _ _ _ _ _ FM) as (T1 & T2 & T3 & T4);
  specialize (Q a b n (Mem inp aux out)); rewrite ?T1, ?T2, ?T3, ?T4 in Q; cbv beta in Q; cbn [m_in m_out m_aux] in Q;
  cbn [Z.of_nat Pos.of_succ_nat Pos.succ] in Q;
  specialize (Q ltac:(assumption) ltac:(assumption) I ltac:(assumption) ltac:(assumption) ltac:(assumption) ltac:(lia) ltac:(lia));
  bases Q;
  replace (a + n * 0) with a in Q by lia; replace (b + n * 0) with b in Q by lia; rewrite Q; clear Q;
  f_equal; f_equal; f_equal.
Ltac good_u c F fam x inp aux out a b n :=
  good_t c F fam inp aux out a b n;
  lazymatch goal with FM : FAM ?v ?st ?su ?k ?fs ?ws |- ?y = x =>
    let H := fresh in let L := fresh in
    pose proof (FAM_untransform v st su k fs ws (c_junk c) a n inp FM ltac:(lia) ltac:(lia) ltac:(lia)
      ltac:(cbn [Z.of_nat Pos.of_succ_nat Pos.succ]; lia)) as H;
    cbn [Z.of_nat Pos.of_succ_nat Pos.succ] in H;
    match goal with E : slice inp a ?l = _ |- _ => replace (n * _) with l in H by lia; rewrite E in H end;
    assert (L : (List.length (lay fs (blocks k x)) = List.length x)%nat)
      by (apply Nat2Z.inj; apply (lay_zlen _ _ _ _ _ _ _ FM); [lia|]; cbn [Z.of_nat Pos.of_succ_nat Pos.succ]; lia);
    apply (FAM_injective v st su k fs ws (lay fs (blocks k x)) _ _ FM ltac:(lia));
    [rewrite L; unfold zlen in *; lia | exact H | split; [symmetry; exact L | reflexivity]]
  end.

Section C.
Variables (c : cfg) (need : bool) (f : ptr -> ptr -> Z -> mem -> res mem).
Lemma bc1_t_run0 : TSPEC c VNone sh_bc1_std_t need any_n (fun P n m => f (P (PI 0)) (P (PO 0)) (8 * n) m) ->
  cpu_ok c -> need = true -> t_good 8 (bc1_layout VNone false) f.
Proof.
  intros F K Hf inp aux out a b n Ha Hb Hn Hi Ho. good_t c F fam_bc1_std inp aux out a b n.
  rewrite (FAM_transform _ _ _ _ _ _ _ _ _ _ FM) by (cbn [Z.of_nat Pos.of_succ_nat Pos.succ]; lia).
  cbn [Z.of_nat Pos.of_succ_nat Pos.succ]. replace (n * 8) with (8 * n) by lia. reflexivity.
Qed.
Lemma bc1_u_run0 : TSPEC c VNone sh_bc1_std_u need any_n (fun P n m => f (P (PI 0)) (P (PO 0)) (8 * n) m) ->
  cpu_ok c -> need = true -> u_good 8 (bc1_layout VNone false) f.
Proof. intros F K Hf x inp aux out a b n Ha Hb Hn Hi Ho Hx Hs. good_u c F fam_bc1_std x inp aux out a b n. Qed.
Lemma bc2_t_run0 : TSPEC c VNone sh_bc2_std_t need any_n (fun P n m => f (P (PI 0)) (P (PO 0)) (16 * n) m) ->
  cpu_ok c -> need = true -> t_good 16 (bc2_layout VNone false) f.
Proof.
  intros F K Hf inp aux out a b n Ha Hb Hn Hi Ho. good_t c F fam_bc2_std inp aux out a b n.
  rewrite (FAM_transform _ _ _ _ _ _ _ _ _ _ FM) by (cbn [Z.of_nat Pos.of_succ_nat Pos.succ]; lia).
  cbn [Z.of_nat Pos.of_succ_nat Pos.succ]. replace (n * 16) with (16 * n) by lia. reflexivity.
Qed.
Lemma bc2_u_run0 : TSPEC c VNone sh_bc2_std_u need any_n (fun P n m => f (P (PI 0)) (P (PO 0)) (16 * n) m) ->
  cpu_ok c -> need = true -> u_good 16 (bc2_layout VNone false) f.
Proof. intros F K Hf x inp aux out a b n Ha Hb Hn Hi Ho Hx Hs. good_u c F fam_bc2_std x inp aux out a b n. Qed.
Lemma bc3_t_run0 : TSPEC c VNone sh_bc3_std_t need any_n (fun P n m => f (P (PI 0)) (P (PO 0)) (16 * n) m) ->
  cpu_ok c -> need = true -> t_good 16 (bc3_layout VNone false false) f.
Proof.
  intros F K Hf inp aux out a b n Ha Hb Hn Hi Ho. good_t c F fam_bc3_std inp aux out a b n.
  rewrite (FAM_transform _ _ _ _ _ _ _ _ _ _ FM) by (cbn [Z.of_nat Pos.of_succ_nat Pos.succ]; lia).
  cbn [Z.of_nat Pos.of_succ_nat Pos.succ]. replace (n * 16) with (16 * n) by lia. reflexivity.
Qed.
Lemma bc3_u_run0 : TSPEC c VNone sh_bc3_std_u need any_n (fun P n m => f (P (PI 0)) (P (PO 0)) (16 * n) m) ->
  cpu_ok c -> need = true -> u_good 16 (bc3_layout VNone false false) f.
Proof. intros F K Hf x inp aux out a b n Ha Hb Hn Hi Ho Hx Hs. good_u c F fam_bc3_std x inp aux out a b n. Qed.
Lemma split_run0 : forall k, TSPEC c VNone sh_split need (from_bytes c k) (fun P n m => f (P (PI 0)) (P (PO 0)) (n * 4) m) ->
  cpu_ok c -> need = true -> forall inp aux out a b n, k <= 4 * n -> (c_debug c = true -> 0 < n) -> 0 <= a -> 0 <= b -> 0 <= n ->
  a + 4 * n <= zlen inp -> b + 4 * n <= zlen out ->
  f (Ptr BIn a) (Ptr BOut b) (4 * n) (Mem inp aux out) =
  Ok (Mem inp aux (splice out b (lay [raw 0 2; raw 2 2] (blocks 4 (slice inp a (4 * n)))))).
Proof.
  intros k Q K Hf inp aux out a b n P1 P2 Ha Hb Hn Hi Ho.
  apply TSPEC_RUN in Q; [|exact sh_split_fine|intros ? ? ? ? E'; cbv beta; rewrite !E'; reflexivity].
  specialize (Q a b n (Mem inp aux out) K Hf (conj P1 P2) Ha Hb Hn).
  change (total (sh_ins sh_split)) with 4 in Q. change (total (map zlen (sh_outs sh_split))) with 4 in Q. cbn [m_in m_out m_aux] in Q.
  specialize (Q ltac:(lia) ltac:(lia)). cbv beta in Q.
  rewrite base_in, base_out in Q by (cbn; lia).
  replace (a + n * presum (sh_ins sh_split) 0) with a in Q by (unfold presum; cbn; lia).
  replace (b + n * presum (map zlen (sh_outs sh_split)) 0) with b in Q by (unfold presum; cbn; lia).
  replace (4 * n) with (n * 4) by lia. rewrite Q. f_equal. f_equal. f_equal.
  rewrite (sh_out_lay _ _ _ 4 [raw 0 2; raw 2 2]); [|exact sh_split_fine|reflexivity|exact sh_split_fields|lia|lia|cbn [Z.of_nat Pos.of_succ_nat Pos.succ]; lia].
  f_equal. unfold blocks. change (Z.of_nat 4) with 4. f_equal.
  pose proof (zlen_slice _ inp a (n * 4) ltac:(lia) ltac:(lia) ltac:(lia)) as Z. unfold zlen in Z.
  replace (List.length (slice inp a (n * 4))) with (Z.to_nat n * 4)%nat by lia. rewrite Nat.div_mul by lia. reflexivity.
Qed.
End C.

Definition t_entry (k : Z) (layout : list byte -> list byte) (e : bench_entry) : Prop :=
  forall c, cpu_ok c -> snd (fst e) c = true -> t_good k layout (snd e c).
Definition u_entry (k : Z) (layout : list byte -> list byte) (e : bench_entry) : Prop :=
  forall c, cpu_ok c -> snd (fst e) c = true -> u_good k layout (snd e c).
Definition split_entry (e : string * (cfg -> bool) * Z * kernel) : Prop :=
  forall c, cpu_ok c -> snd (fst (fst e)) c = true -> forall inp aux out a b n, snd (fst e) <= 4 * n -> (c_debug c = true -> 0 < n) ->
  0 <= a -> 0 <= b -> 0 <= n -> a + 4 * n <= zlen inp -> b + 4 * n <= zlen out ->
  snd e c (Ptr BIn a) (Ptr BOut b) (4 * n) (Mem inp aux out) =
  Ok (Mem inp aux (splice out b (lay [raw 0 2; raw 2 2] (blocks 4 (slice inp a (4 * n)))))).
