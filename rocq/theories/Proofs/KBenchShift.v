(** The two BC1 kernels whose first loop forms a pointer past what it then compares:
    they work exactly when the input's allocation has room for that pointer. *)
From Verif Require Import Base.Bytes Base.Res Model.Color565 Model.Ycc Model.Kernel Model.KernelBench Model.GenBenchBc1
  Proofs.LanesFacts Proofs.KernelCheck Proofs.KernelLoop Proofs.KernelFun Proofs.Shapes Proofs.KernelBenchFun Proofs.KBenchBc1.
From Coq Require Import ZifyBool ZifyNat.

Lemma while2_step : forall junk v C m0 N u cs names body re we x i kk n k d1 d2 pr m,
  WF C m0 N -> (existsb uses_ycc body = true -> v <> VNone) ->
  check (cf_sh C) u cs names body = Some (re, we) -> 0 < u ->
  look names x = Some (PI i) -> pid_ok (cf_sh C) (PI i) = true -> 0 < stride (cf_sh C) (PI i) ->
  0 <= kk -> 0 <= n -> kk + u * n <= N ->
  (0 < n -> room C m0 N (kk + u * (n - 1)) re we) ->
  0 <= k < u * stride (cf_sh C) (PI i) -> d2 = (kk + u * n) * stride (cf_sh C) (PI i) -> d2 <= d1 <= N * stride (cf_sh C) (PI i) ->
  pr = names_at C kk names -> INV junk v C m0 N kk m ->
  if p_off (base C (PI i)) + d2 + k <=? zlen (buf_of m (p_buf (base C (PI i)))) then
    exists s', while_lt2 junk (vnum v) body x k (padd (base C (PI i)) d1) (padd (base C (PI i)) d2) (St cs pr m) = Ok s' /\
      READY C names cs (kk + u * n) s' /\ INV junk v C m0 N (kk + u * n) (mm s')
  else exists why, while_lt2 junk (vnum v) body x k (padd (base C (PI i)) d1) (padd (base C (PI i)) d2) (St cs pr m) = Ub why.
Proof.
  intros junk v C m0 N u cs names body re we x i kk n k d1 d2 pr m W HV HC Hu Hx Hpx Hst Hkk Hn HN HR Hk -> Hd1 -> I.
  set (s0 := St cs (names_at C kk names) m).
  assert (RD : READY C names cs kk s0) by (apply ready_intro; reflexivity).
  cbn [pid_ok] in Hpx.
  destruct (wf_in _ _ _ W i ltac:(lia)) as (W1 & W2 & W3 & W4).
  assert (BL : forall m' kk', INV junk v C m0 N kk' m' -> buf_of m' (p_buf (base C (PI i))) = buf_of m0 (p_buf (base C (PI i)))).
  { intros m' kk' I'. apply buf_of_inv; [apply (inv_in _ _ _ _ _ _ _ I')|apply (inv_aux _ _ _ _ _ _ _ I')|exact W1]. }
  pose proof (enough_fuel junk v C m0 N u names body W HV Hu x (PI i) (padd (base C (PI i)) ((kk + u * n) * stride (cf_sh C) (PI i))) Hx eq_refl
    ltac:(cbn [pid_ok]; lia) Hst kk n s0 Hkk Hn HN I) as EF.
  destruct (while2_go_turns junk v C m0 N u cs names body re we W HV HC Hu x (PI i) k
    (padd (base C (PI i)) d1) (padd (base C (PI i)) ((kk + u * n) * stride (cf_sh C) (PI i))) Hx eq_refl eq_refl Hst ltac:(lia)
    (Z.to_nat n) (loop_fuel s0 (padd (base C (PI i)) ((kk + u * n) * stride (cf_sh C) (PI i)))) kk s0) as (s' & f' & X & RD' & I');
    rewrite ?Z2Nat.id in * by lia; try assumption; try lia.
  - intros. apply HR. lia.
  - intros. unfold at_blk. cbn [padd p_off]. nia.
  - intros. unfold at_blk. cbn [padd p_off]. nia.
  - intros m' kk' I'. rewrite (BL _ _ I'). cbn [padd p_off]. lia.
  - unfold while_lt2. rewrite X. clear X.
    assert (E : forall f, while2_go f junk (vnum v) body x k (padd (base C (PI i)) d1) (padd (base C (PI i)) ((kk + u * n) * stride (cf_sh C) (PI i))) s' =
              if p_off (base C (PI i)) + (kk + u * n) * stride (cf_sh C) (PI i) + k <=? zlen (buf_of m (p_buf (base C (PI i)))) then Ok s'
              else Ub "pointer arithmetic out of bounds").
    { intros f. destruct f; cbn [while2_go]; rewrite (ready_getp _ _ _ _ _ _ _ RD' Hx); cbn [bind]; unfold ptr_add; cbn [padd p_off p_buf];
        rewrite (BL _ _ I'), (BL _ _ I);
        destruct (p_off (base C (PI i)) + (kk + u * n) * stride (cf_sh C) (PI i) + k <=? zlen (buf_of m0 (p_buf (base C (PI i))))) eqn:L;
        match goal with |- context [if ?b then Ok (padd _ _) else _] => (replace b with true by nia) || (replace b with false by lia) end;
        cbn [bind]; try reflexivity;
        unfold ptr_ltb; cbn [padd p_off p_buf]; rewrite buf_eqb_refl; cbn [bind];
        match goal with |- context [if ?b then Ok ?t else Ok false] => replace (if b then Ok t else Ok false) with (@Ok bool false) by (destruct b; f_equal; lia) end;
        reflexivity. }
    rewrite E. destruct (_ <=? _); [|eexists; reflexivity]. exists s'. auto.
Qed.

(** Room for the pointer that the last test of the first loop forms: [u] blocks per turn. *)
Definition shift_room (u : Z) (p : ptr) (n : Z) (m : mem) : bool :=
  p_off p + 8 * u * (n / u) + 8 * (u - 1) <=? zlen (buf_of m (p_buf p)).

Ltac kwhile2 u n :=
  lazymatch goal with
  | W : WF ?C ?m0 ?N, I : INV ?j ?v ?C ?m0 ?N ?kk ?m
    |- context [while_lt2 ?j ?vt ?body ?x ?k (padd (base ?C (PI ?i)) ?d1) (padd (base ?C (PI ?i)) ?d2) (St ?cs ?prs ?m)] =>
      let names := names_of C prs in
      let r := eval vm_compute in (check (cf_sh C) u cs names body) in
      lazymatch r with
      | Some (?re, ?we) =>
          let HC := fresh "HC" in
          assert (HC : check (cf_sh C) u cs names body = Some (re, we)) by (vm_compute; reflexivity);
          let t := eval vm_compute in (room_t (cf_sh C) re we) in
          let S := fresh "S" in
          pose proof (while2_step j v C m0 N u cs names body re we x i kk n k d1 d2 prs m) as S;
          lapply S; [clear S; intros S | exact W];
          lapply S; [clear S; intros S | kvar];
          lapply S; [clear S; intros S | exact HC];
          lapply S; [clear S; intros S | lia];
          lapply S; [clear S; intros S | reflexivity];
          lapply S; [clear S; intros S | reflexivity];
          lapply S; [clear S; intros S | reflexivity];
          lapply S; [clear S; intros S | klia];
          lapply S; [clear S; intros S | klia];
          lapply S; [clear S; intros S | klia];
          lapply S; [clear S; intros S | let Hp := fresh in intros Hp; apply (room_ok C m0 N _ t _ _ W); [klia | klia | vm_compute; reflexivity]];
          lapply S; [clear S; intros S | klia];
          lapply S; [clear S; intros S | klia];
          lapply S; [clear S; intros S | klia];
          lapply S; [clear S; intros S | prs_eq];
          lapply S; [clear S; intros S | exact I];
          clear HC
      end
  end.

(** With the room, the kernel does what it should. *)
Lemma shift_unroll_4_room : forall c, TSPEC c VNone sh_bc1_std_t true any_n
  (fun P n m => if shift_room 4 (P (PI 0)) n m then bc1_std_t_bench_portable64_shift_unroll_4 c (P (PI 0)) (P (PO 0)) (8 * n) m
                else bc1_std_t_bench_portable64_shift c (P (PI 0)) (P (PO 0)) (8 * n) m).
Proof.
  intros c ins outs m0 N m K Hf Hp W HC HN I. destruct (shift_room _ _ _ _) eqn:R;
    [|exact (bc1_std_t_bench_portable64_shift_ok c ins outs m0 N m K Hf Hp W HC HN I)].
  revert ins outs m0 N m K Hf Hp W HC HN I R. kstart bc1_std_t_bench_portable64_shift_unroll_4.
  intros R. unfold shift_room in R. cbn [padd p_off p_buf] in R. kgo.
  kwhile2 4 (N / 4).
  match goal with H : if ?b then _ else _ |- _ => replace b with true in H by (symmetry; cbn [cf_sh] in *; lia); destruct H as (s & X & R1 & I1) end.
  cbn [vnum] in X. rewrite X. clear X I. cbn [bind]. kbench ltac:(fail).
Qed.
(** Without it, the kernel's behaviour is undefined. *)
Lemma shift_unroll_4_no_room : forall c, TSPEC c VNone sh_bc1_std_t true any_n
  (fun P n m => if shift_room 4 (P (PI 0)) n m then bc1_std_t_bench_portable64_shift c (P (PI 0)) (P (PO 0)) (8 * n) m
                else match bc1_std_t_bench_portable64_shift_unroll_4 c (P (PI 0)) (P (PO 0)) (8 * n) m with
                     | Ub _ => bc1_std_t_bench_portable64_shift c (P (PI 0)) (P (PO 0)) (8 * n) m
                     | _ => Panic "" end).
Proof.
  intros c ins outs m0 N m K Hf Hp W HC HN I.
  pose proof (bc1_std_t_bench_portable64_shift_ok c ins outs m0 N m K Hf Hp W HC HN I) as Sh.
  destruct (shift_room _ _ _ _) eqn:R; [exact Sh|].
  match goal with |- exists m', match ?k with _ => _ end = _ /\ _ => assert (U : exists why, k = Ub why /\ True) end.
  { clear Sh. revert ins outs m0 N m K Hf Hp W HC HN I R. kstart bc1_std_t_bench_portable64_shift_unroll_4.
    intros R. unfold shift_room in R. cbn [padd p_off p_buf] in R. kgo.
    kwhile2 4 (N / 4).
    match goal with H : if ?b then _ else _ |- _ => replace b with false in H by (symmetry; cbn [cf_sh] in *; lia); destruct H as (why & X) end.
    cbn [vnum] in X. rewrite X. cbn [bind]. exists why. auto. }
  destruct U as (why & U & _). rewrite U. exact Sh.
Qed.

(** With the room, the kernel does what it should. *)
Lemma shift_unroll_8_room : forall c, TSPEC c VNone sh_bc1_std_t true any_n
  (fun P n m => if shift_room 8 (P (PI 0)) n m then bc1_std_t_bench_portable64_shift_unroll_8 c (P (PI 0)) (P (PO 0)) (8 * n) m
                else bc1_std_t_bench_portable64_shift c (P (PI 0)) (P (PO 0)) (8 * n) m).
Proof.
  intros c ins outs m0 N m K Hf Hp W HC HN I. destruct (shift_room _ _ _ _) eqn:R;
    [|exact (bc1_std_t_bench_portable64_shift_ok c ins outs m0 N m K Hf Hp W HC HN I)].
  revert ins outs m0 N m K Hf Hp W HC HN I R. kstart bc1_std_t_bench_portable64_shift_unroll_8.
  intros R. unfold shift_room in R. cbn [padd p_off p_buf] in R. kgo.
  kwhile2 8 (N / 8).
  match goal with H : if ?b then _ else _ |- _ => replace b with true in H by (symmetry; cbn [cf_sh] in *; lia); destruct H as (s & X & R1 & I1) end.
  cbn [vnum] in X. rewrite X. clear X I. cbn [bind]. kbench ltac:(fail).
Qed.
(** Without it, the kernel's behaviour is undefined. *)
Lemma shift_unroll_8_no_room : forall c, TSPEC c VNone sh_bc1_std_t true any_n
  (fun P n m => if shift_room 8 (P (PI 0)) n m then bc1_std_t_bench_portable64_shift c (P (PI 0)) (P (PO 0)) (8 * n) m
                else match bc1_std_t_bench_portable64_shift_unroll_8 c (P (PI 0)) (P (PO 0)) (8 * n) m with
                     | Ub _ => bc1_std_t_bench_portable64_shift c (P (PI 0)) (P (PO 0)) (8 * n) m
                     | _ => Panic "" end).
Proof.
  intros c ins outs m0 N m K Hf Hp W HC HN I.
  pose proof (bc1_std_t_bench_portable64_shift_ok c ins outs m0 N m K Hf Hp W HC HN I) as Sh.
  destruct (shift_room _ _ _ _) eqn:R; [exact Sh|].
  match goal with |- exists m', match ?k with _ => _ end = _ /\ _ => assert (U : exists why, k = Ub why /\ True) end.
  { clear Sh. revert ins outs m0 N m K Hf Hp W HC HN I R. kstart bc1_std_t_bench_portable64_shift_unroll_8.
    intros R. unfold shift_room in R. cbn [padd p_off p_buf] in R. kgo.
    kwhile2 8 (N / 8).
    match goal with H : if ?b then _ else _ |- _ => replace b with false in H by (symmetry; cbn [cf_sh] in *; lia); destruct H as (why & X) end.
    cbn [vnum] in X. rewrite X. cbn [bind]. exists why. auto. }
  destruct U as (why & U & _). rewrite U. exact Sh.
Qed.

