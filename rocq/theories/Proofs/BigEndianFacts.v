(** What a big-endian machine does. *)
From Verif Require Import Base.Bytes Base.Res Model.Color565 Model.Ycc Model.Kernel Model.Transform Model.BigEndian Model.BeTransform
  Model.GenBeSplit565 Proofs.KernelCheck Proofs.KernelLoop Proofs.KernelFun Proofs.Shapes Proofs.BeShapes
  Spec.YCoCg Spec.Layout Spec.BigEndian
  Proofs.LayoutFacts Proofs.ShapeLayout Proofs.Families Proofs.BeFamilies Proofs.TransformFacts Proofs.SliceFacts
  Proofs.BeTransformFacts Proofs.BeSliceFacts Proofs.KSplit565 Proofs.Split565Facts.
From Coq Require Import ZifyBool ZifyNat.
Open Scope string_scope.
Open Scope list_scope.
Open Scope Z_scope.

Lemma big_endian_ok : forall debug junk, cpu_ok (big_endian_cpu debug junk).
Proof. intros. constructor; intros H; discriminate H. Qed.

(** ** Loads and stores *)

Lemma list_of_len : forall (n : nat) (l : list byte), List.length l = n ->
  match n with
  | 1%nat => exists a, l = [a]
  | 2%nat => exists a b, l = [a; b]
  | 4%nat => exists a b c d, l = [a; b; c; d]
  | 8%nat => exists a b c d e f g h, l = [a; b; c; d; e; f; g; h]
  | _ => True
  end.
Proof.
  intros n l H.
  destruct n as [|[|[|[|[|[|[|[|[|n]]]]]]]]]; try exact I;
    repeat (destruct l as [|? l]; [discriminate H|]); destruct l; try discriminate H; repeat eexists.
Qed.

Lemma look_same : forall {A} (e : env A) x a, look ((x, a) :: e) x = Some a.
Proof. intros. cbn [look]. rewrite String.eqb_refl. reflexivity. Qed.

Lemma be_reverse_run : forall junk vt d s n r p m l, (n = 1 \/ n = 2 \/ n = 4 \/ n = 8) -> look r s = Some l -> zlen l = n ->
  String.eqb s "be result" = false -> String.eqb s "be byte" = false ->
  exists r', exec junk vt (be_reverse d s n) (St r p m) = Ok (St ((d, rev l) :: r') p m) /\
    forall x, String.eqb x "be result" = false -> String.eqb x "be byte" = false -> look r' x = look r x.
Proof.
  intros junk vt d s n r p m l Hn Hs Hl N1 N2. unfold zlen in Hl.
  destruct Hn as [-> | [-> | [-> | ->]]];
    match type of Hl with _ = ?k => let k' := eval vm_compute in (Z.to_nat k) in pose proof (list_of_len k' l ltac:(lia)) as Q end;
    cbv iota in Q; decompose [ex] Q; clear Q; subst l; eexists; (split;
      [ match goal with |- context [be_reverse d s ?k] =>
          let b := eval vm_compute in (be_reverse d s k) in change (be_reverse d s k) with b end;
        repeat (cbn [exec exec1 bind oget mapM vr pr mm look String.eqb Ascii.eqb Bool.eqb]; rewrite ?N2, ?N1, ?Hs; cbn [bind oget];
                match goal with |- context [apply_op ?D ?o ?a] =>
                  let v := eval cbv in (apply_op (cdom x00 0) o a) in change (apply_op D o a) with v end);
        cbn [exec exec1 bind oget mapM vr pr mm]; reflexivity
      | intros y X1 X2; cbn [look]; rewrite ?X1, ?X2; reflexivity ]).
Qed.

Definition width (n : Z) : Prop := n = 1 \/ n = 2 \/ n = 4 \/ n = 8.
Definition scratch (x : string) : bool := String.eqb x "be result" || String.eqb x "be byte" || String.eqb x "be store".
Lemma scratch_no : forall x, scratch x = false ->
  String.eqb x "be result" = false /\ String.eqb x "be byte" = false /\ String.eqb x "be store" = false.
Proof. intros x H. unfold scratch in H. apply orb_false_elim in H. destruct H as [H ?]. apply orb_false_elim in H. tauto. Qed.

Lemma be_load_run : forall junk vt d p off n r ps m q l, width n -> scratch d = false ->
  look ps p = Some q -> mload m (padd q off) n = Ok l -> zlen l = n ->
  exists r', exec junk vt (be_body [ILoad d p off n]) (St r ps m) = Ok (St r' ps m) /\
    look r' d = Some (rev l) /\ forall x, scratch x = false -> x <> d -> look r' x = look r x.
Proof.
  intros junk vt d p off n r ps m q l Hn Hd Hp Hm Hl. destruct (scratch_no d Hd) as (D1 & D2 & D3).
  unfold be_body. cbn [flat_map be_instr]. rewrite app_nil_r.
  cbn [exec exec1 pr mm vr]. rewrite Hp. cbn [oget bind]. rewrite Hm. cbn [bind].
  destruct (be_reverse_run junk vt d d n ((d, l) :: r) ps m l Hn (look_same r d l) Hl D1 D2) as (r' & E & F).
  exists ((d, rev l) :: r'). split; [exact E|]. split; [apply look_same|].
  intros x X Hx. destruct (scratch_no x X) as (X1 & X2 & _). apply String.eqb_neq in Hx. cbn [look]. rewrite Hx.
  rewrite F by assumption. cbn [look]. rewrite Hx. reflexivity.
Qed.

Lemma exec_app : forall junk vt a b s, exec junk vt (a ++ b) s = bind (exec junk vt a s) (exec junk vt b).
Proof.
  intros junk vt a b. induction a as [|i a IH]; intros s; [reflexivity|]. cbn [app exec].
  destruct (exec1 junk vt i s); cbn [bind]; [apply IH|reflexivity|reflexivity].
Qed.

Lemma be_store_run : forall junk vt p off n s r ps m q l m', width n -> scratch s = false ->
  look ps p = Some q -> look r s = Some l -> zlen l = n -> mstore m (padd q off) (rev l) = Ok m' ->
  exists r', exec junk vt (be_body [IStore p off n s]) (St r ps m) = Ok (St r' ps m') /\
    forall x, scratch x = false -> look r' x = look r x.
Proof.
  intros junk vt p off n s r ps m q l m' Hn Hs Hp Hr Hl Hm. destruct (scratch_no s Hs) as (D1 & D2 & D3).
  unfold be_body. cbn [flat_map be_instr]. rewrite app_nil_r, exec_app.
  destruct (be_reverse_run junk vt "be store" s n r ps m l Hn Hr Hl D1 D2) as (r' & E & F).
  rewrite E. cbn [bind exec exec1 pr mm vr]. rewrite Hp. cbn [oget bind]. rewrite look_same. cbn [oget bind].
  assert (Hlen : (zlen (rev l) =? n) = true) by (unfold zlen in *; rewrite rev_length; lia). rewrite Hlen, Hm.
  eexists. split; [reflexivity|]. intros x X. destruct (scratch_no x X) as (X1 & X2 & X3). cbn [look]. rewrite X3. apply F; assumption.
Qed.

(** ** The endpoint splitter *)

Lemma be_u32_with_separate_endpoints_ok : forall c, SPEC c VNone sh_split true any_n
  (fun P n m => be_common_transforms_split_565_color_endpoints_portable32_u32_with_separate_endpoints c (padd (P (PI 0)) (n * 4)) (P (PI 0)) (P (PO 0)) (P (PO 1)) m).
Proof. intros c. kstart be_common_transforms_split_565_color_endpoints_portable32_u32_with_separate_endpoints. kauto ltac:(fail). Qed.
Ltac be_ktail n :=
  lazymatch goal with
  | W : WF (Conf ?sh ?ins ?outs) ?m0 ?N, I : INV ?j ?v (Conf ?sh ?ins ?outs) ?m0 ?N ?kk ?m, K : cpu_ok ?c
    |- exists m', bind ?call _ = _ /\ _ =>
      let m1 := fresh "m" in let X := fresh "X" in let I' := fresh "I" in let E := fresh "E" in
      destruct (be_u32_with_separate_endpoints_ok c ins outs m0 N kk n m K) as (m1 & X & I');
      [reflexivity | exact Logic.I | exact W | klia | klia | klia | exact I | ];
      cbv beta in X;
      lazymatch type of X with ?l = _ => assert (E : call = l); [kstride; f_equal; arg_eq | ] end;
      rewrite E, X; clear X E I; cbn [bind]
  end.
Lemma be_portable_ok : forall c, TSPEC c VNone sh_split true (nz_debug c)
  (fun P n m => be_common_transforms_split_565_color_endpoints_portable32_u32 c (P (PI 0)) (P (PO 0)) (n * 4) m).
Proof. intros c. kstart be_common_transforms_split_565_color_endpoints_portable32_u32. kgo. be_ktail N. kdone. Qed.
Lemma be_split_ok : forall c, TSPEC c VNone sh_split true (nz_debug c)
  (fun P n m => be_common_transforms_split_565_color_endpoints_split_color_endpoints c (P (PI 0)) (P (PO 0)) (n * 4) m).
Proof.
  intros c. kstart be_common_transforms_split_565_color_endpoints_split_color_endpoints.
  rewrite debug_assert_ok by (intros D; specialize (Hp D); lia). cbn [bind].
  pose proof (be_portable_ok c ins outs m0 N m K eq_refl Hp W HC HN I) as (m' & E & I'). cbv beta in E.
  exists m'. rewrite E. split; [reflexivity|exact I'].
Qed.
Lemma be_split_run : forall c inp aux out a b n, cpu_ok c -> (c_debug c = true -> 0 < n) -> 0 <= a -> 0 <= b -> 0 <= n ->
  a + 4 * n <= zlen inp -> b + 4 * n <= zlen out ->
  be_common_transforms_split_565_color_endpoints_split_color_endpoints c (Ptr BIn a) (Ptr BOut b) (4 * n) (Mem inp aux out) =
  Ok (Mem inp aux (splice out b (lay [raw 0 2; raw 2 2] (blocks 4 (slice inp a (4 * n)))))).
Proof.
  intros c inp aux out a b n K P Ha Hb Hn Hi Ho.
  pose proof (be_split_ok c) as Q. apply TSPEC_RUN in Q; [|exact sh_split_fine|intros ? ? ? ? E'; cbv beta; rewrite !E'; reflexivity].
  specialize (Q a b n (Mem inp aux out) K eq_refl P Ha Hb Hn).
  change (total (sh_ins sh_split)) with 4 in Q. change (total (map zlen (sh_outs sh_split))) with 4 in Q. cbn [m_in m_out m_aux] in Q.
  specialize (Q ltac:(lia) ltac:(lia)). cbv beta in Q.
  rewrite base_in, base_out in Q by (cbn; lia).
  replace (a + n * presum (sh_ins sh_split) 0) with a in Q by (unfold presum; cbn; lia).
  replace (b + n * presum (map zlen (sh_outs sh_split)) 0) with b in Q by (unfold presum; cbn; lia).
  replace (4 * n) with (n * 4) by lia. rewrite Q. f_equal. f_equal. f_equal.
  rewrite (sh_out_lay _ _ _ 4 [raw 0 2; raw 2 2]); [|exact sh_split_fine|reflexivity|exact sh_split_fields|lia|lia|cbn [Z.of_nat Pos.of_succ_nat Pos.succ]; lia].
  f_equal. unfold blocks. change (Z.of_nat 4) with 4. f_equal.
  pose proof (zlen_slice _ inp a (n * 4) ltac:(lia) ltac:(lia) ltac:(lia)) as Z. unfold zlen in Z.
  replace (List.length (slice inp a (n * 4))) with (Z.to_nat n * 4)%nat by lia. rewrite Nat.div_mul by lia. reflexivity.
Qed.
