(** Stepping through the functions around the kernel loops. *)
From Verif Require Import Base.Bytes Base.Res Model.Color565 Model.Ycc Model.Kernel
  Proofs.LanesFacts Proofs.KernelCheck Proofs.KernelLoop.
From Coq Require Import ZifyBool ZifyNat.

(** [call] processes [n] more blocks of shape [sh], wherever they are. The
    argument [P] gives the value of each pointer; [feats] is what the CPU must
    have, [pre] what [n] must satisfy. *)
Definition SPEC (c : cfg) (v : variant) (sh : shape) (feats : bool) (pre : Z -> Prop)
  (call : (pid -> ptr) -> Z -> mem -> res mem) : Prop :=
  forall ins outs m0 N kk n m, cpu_ok c -> feats = true -> pre n ->
  WF (Conf sh ins outs) m0 N -> 0 <= kk -> 0 <= n -> kk + n <= N -> INV (c_junk c) v (Conf sh ins outs) m0 N kk m ->
  exists m', call (fun x => padd (base (Conf sh ins outs) x) (kk * stride sh x)) n m = Ok m' /\
             INV (c_junk c) v (Conf sh ins outs) m0 N (kk + n) m'.

(** The offset of a section when sections of [1] block each follow one another. *)
Definition soff (sh : shape) (x : pid) : Z :=
  match x with
  | PI k => fold_right Z.add 0 (firstn k (sh_ins sh))
  | PO j => fold_right Z.add 0 (map zlen (firstn j (sh_outs sh)))
  end.
Definition first_of (x : pid) : pid := match x with PI _ => PI 0 | PO _ => PO 0 end.
(** The sections of all [N] blocks follow one another. *)
Definition CONTIG (C : conf) (N : Z) : Prop :=
  forall x, pid_ok (cf_sh C) x = true -> base C x = padd (base C (first_of x)) (N * soff (cf_sh C) x).
(** [call] processes all the blocks, given the start of the first sections. *)
Definition TSPEC (c : cfg) (v : variant) (sh : shape) (feats : bool) (pre : Z -> Prop)
  (call : (pid -> ptr) -> Z -> mem -> res mem) : Prop :=
  forall ins outs m0 n m, cpu_ok c -> feats = true -> pre n ->
  WF (Conf sh ins outs) m0 n -> CONTIG (Conf sh ins outs) n -> 0 <= n ->
  INV (c_junk c) v (Conf sh ins outs) m0 n 0 m ->
  exists m', call (fun x => padd (base (Conf sh ins outs) x) 0) n m = Ok m' /\
             INV (c_junk c) v (Conf sh ins outs) m0 n n m'.

(** A variant that is not [None]. *)
Definition vok (v : variant) : bool := match v with VNone => false | _ => true end.
Lemma vok_ok : forall v, vok v = true -> v <> VNone.
Proof. intros []; simpl; congruence. Qed.
(** BC2's AVX512BW kernels also use AVX512VL instructions, which the dispatcher does not ask about. *)
Definition vl_ok (c : cfg) : bool := implb (c_avx512bw c) (c_avx512vl c).
Definition any_n : Z -> Prop := fun _ => True.
(** what [debug_assert!(block_count > 0)] asks for *)
Definition nz_debug (c : cfg) : Z -> Prop := fun n => c_debug c = true -> 0 < n.

Lemma cpu_has_ok : forall b w, b = true -> cpu_has b w = Ok tt.
Proof. intros b w ->. reflexivity. Qed.
Lemma debug_assert_ok : forall d b w, (d = true -> b = true) -> debug_assert d b w = Ok tt.
Proof. intros [] b w H; unfold debug_assert; [rewrite H by reflexivity|]; reflexivity. Qed.
Lemma variant_enum_ok : forall v E, vok v = true ->
  (if vnum v =? 1 then Ok V1 else if vnum v =? 2 then Ok V2 else if vnum v =? 3 then Ok V3 else E) = Ok v.
Proof. intros [] E H; try discriminate H; reflexivity. Qed.
Lemma vl_use : forall c, vl_ok c = true -> c_avx512bw c = true -> c_avx512vl c = true.
Proof. intros c H H'. unfold vl_ok in H. rewrite H' in H. exact H. Qed.
Lemma arch_i686 : forall c, is_x86 c = true -> is_x64 c = false -> is_i686 c = true.
Proof. intros c. unfold is_x86, is_x64, is_i686. destruct (c_arch c); congruence. Qed.
Lemma has_sse2_ok : forall c, cpu_ok c -> has_sse2 c = true -> c_sse2 c = true.
Proof. intros c H Hs. unfold has_sse2 in Hs. destruct (is_x64 c) eqn:E; [apply (ok_x64 c H E)|exact Hs]. Qed.
Lemma usub_ok : forall a b, b <= a -> usub a b = Ok (a - b).
Proof. intros a b H. unfold usub. replace (b <=? a) with true by lia. reflexivity. Qed.

(** clearing low bits rounds down *)
Lemma ldiff_low : forall k a c, 0 <= k -> c = Z.ones k -> Z.ldiff a c = a - a mod 2 ^ k.
Proof.
  intros k a c Hk ->. rewrite Z.ldiff_ones_r, Z.shiftl_mul_pow2, Z.shiftr_div_pow2 by lia.
  pose proof (Z.div_mod a (2 ^ k)) as H. lia.
Qed.

Lemma padd_padd : forall p a b, padd (padd p a) b = padd p (a + b).
Proof. intros [b o] x y. unfold padd. cbn. f_equal. lia. Qed.
Lemma padd_0 : forall p, padd p 0 = p.
Proof. intros [b o]. unfold padd. cbn. f_equal. lia. Qed.

Lemma ptr_add_ok : forall junk v C m0 N k m x a d,
  WF C m0 N -> INV junk v C m0 N k m -> pid_ok (cf_sh C) x = true ->
  0 <= a + d <= N * stride (cf_sh C) x ->
  ptr_add m (padd (base C x) a) d = Ok (padd (base C x) (a + d)).
Proof.
  intros junk v C m0 N k m x a d W I Hx Hr. unfold ptr_add.
  rewrite padd_padd. cbn [padd p_off p_buf].
  assert (H : 0 <= p_off (base C x) /\
              p_off (base C x) + N * stride (cf_sh C) x <= zlen (buf_of m (p_buf (base C x)))).
  { destruct x as [i|j]; cbn [pid_ok] in Hx.
    - destruct (wf_in _ _ _ W i ltac:(lia)) as (W1 & W2 & W3 & W4).
      rewrite (buf_of_inv m m0) by first [apply (inv_in _ _ _ _ _ _ _ I)|apply (inv_aux _ _ _ _ _ _ _ I)|exact W1].
      lia.
    - destruct (wf_out _ _ _ W j ltac:(lia)) as (W1 & W2 & W3 & W4).
      rewrite W1. cbn [buf_of]. rewrite (inv_len _ _ _ _ _ _ _ I). lia. }
  replace ((0 <=? p_off (base C x) + a + d) && (p_off (base C x) + a + d <=? zlen (buf_of m (p_buf (base C x)))))
    with true by lia.
  reflexivity.
Qed.

(** from one section to the start of another *)
Lemma ptr_hop_ok : forall junk v C m0 N k m x y a d,
  WF C m0 N -> CONTIG C N -> INV junk v C m0 N k m ->
  pid_ok (cf_sh C) x = true -> pid_ok (cf_sh C) y = true -> first_of x = first_of y ->
  N * soff (cf_sh C) x + a + d = N * soff (cf_sh C) y ->
  ptr_add m (padd (base C x) a) d = Ok (padd (base C y) 0).
Proof.
  intros junk v C m0 N k m x y a d W HC I Hx Hy Hf He.
  assert (E : padd (base C x) (a + d) = padd (base C y) 0).
  { rewrite (HC x Hx), (HC y Hy), Hf, !padd_padd. f_equal. lia. }
  unfold ptr_add. rewrite padd_padd, E.
  assert (H : 0 <= p_off (base C y) /\
              p_off (base C y) + N * stride (cf_sh C) y <= zlen (buf_of m (p_buf (base C y))) /\
              0 <= stride (cf_sh C) y).
  { destruct y as [i|j]; cbn [pid_ok] in Hy.
    - destruct (wf_in _ _ _ W i ltac:(lia)) as (W1 & W2 & W3 & W4).
      rewrite (buf_of_inv m m0) by first [apply (inv_in _ _ _ _ _ _ _ I)|apply (inv_aux _ _ _ _ _ _ _ I)|exact W1].
      lia.
    - destruct (wf_out _ _ _ W j ltac:(lia)) as (W1 & W2 & W3 & W4).
      rewrite W1. cbn [buf_of]. rewrite (inv_len _ _ _ _ _ _ _ I). lia. }
  pose proof (wf_N _ _ _ W) as HN.
  assert (Hm : 0 <= N * stride (cf_sh C) y) by (apply Z.mul_nonneg_nonneg; lia).
  assert (Eb : p_buf (padd (base C x) a) = p_buf (base C y)).
  { apply (f_equal p_buf) in E. cbn [padd p_buf] in *. exact E. }
  rewrite Eb. cbn [padd p_off p_buf].
  assert (Eo : p_off (base C x) + a + d = p_off (base C y)).
  { apply (f_equal p_off) in E. cbn [padd p_off] in E. lia. }
  rewrite Eo.
  match goal with |- (if ?b then _ else _) = _ => replace b with true by lia end.
  reflexivity.
Qed.

Lemma ptr_diff_ok : forall p a b, b <= a -> ptr_diff (padd p a) (padd p b) = Ok (a - b).
Proof.
  intros p a b H. unfold ptr_diff. cbn [padd p_buf p_off].
  replace (buf_eqb (p_buf p) (p_buf p)) with true by (destruct (p_buf p); reflexivity). cbn [negb].
  replace (p_off p + b <=? p_off p + a) with true by lia. f_equal. lia.
Qed.
Lemma ptr_ltb_ok : forall p a b, ptr_ltb (padd p a) (padd p b) = Ok (a <? b).
Proof.
  intros p a b. unfold ptr_ltb. cbn [padd p_buf p_off].
  replace (buf_eqb (p_buf p) (p_buf p)) with true by (destruct (p_buf p); reflexivity).
  f_equal. lia.
Qed.

Definition names_at (C : conf) (kk : Z) (names : env pid) : env ptr :=
  map (fun '(p, x) => (p, at_blk C kk x)) names.
Lemma ready_intro : forall C names cs kk pr m, pr = names_at C kk names ->
  READY C names cs kk (St cs pr m).
Proof.
  intros C names cs kk p m ->. split; cbn [Kernel.pr vr].
  - intros q x H. unfold names_at. rewrite (look_map _ _ (at_blk C kk)). rewrite H. reflexivity.
  - auto.
Qed.
Lemma ready_getp : forall C names cs kk s p x, READY C names cs kk s -> look names p = Some x ->
  getp s p = Ok (padd (base C x) (kk * stride (cf_sh C) x)).
Proof. intros C names cs kk s p x [R _] H. unfold getp. rewrite (R _ _ H). reflexivity. Qed.

(** Loops, with the number of turns given. *)
Lemma while_step : forall junk v C m0 N u cs names body re we x px kk n e pr m,
  WF C m0 N -> (existsb uses_ycc body = true -> v <> VNone) ->
  check (cf_sh C) u cs names body = Some (re, we) -> 0 < u ->
  look names x = Some px -> pid_ok (cf_sh C) px = true -> 0 < stride (cf_sh C) px ->
  0 <= kk -> 0 <= n -> kk + u * n <= N ->
  (0 < n -> room C m0 N (kk + u * (n - 1)) re we) ->
  e = at_blk C (kk + u * n) px -> pr = names_at C kk names ->
  INV junk v C m0 N kk m ->
  exists s', while_lt junk (vnum v) body x e (St cs pr m) = Ok s' /\
    READY C names cs (kk + u * n) s' /\ INV junk v C m0 N (kk + u * n) (mm s').
Proof.
  intros. eapply while_sound; try eassumption.
  - subst e. unfold at_blk. reflexivity.
  - apply ready_intro. assumption.
Qed.
Lemma asm_step : forall junk v C m0 N u cs names body re we x px kk n e pr m,
  WF C m0 N -> (existsb uses_ycc body = true -> v <> VNone) ->
  check (cf_sh C) u cs names body = Some (re, we) -> 0 < u ->
  look names x = Some px -> pid_ok (cf_sh C) px = true -> 0 < stride (cf_sh C) px ->
  0 <= kk -> 0 < n -> kk + u * n <= N ->
  (0 < n -> room C m0 N (kk + u * (n - 1)) re we) ->
  e = at_blk C (kk + u * n) px -> pr = names_at C kk names ->
  INV junk v C m0 N kk m ->
  exists s', asm_jb junk (vnum v) body x e (St cs pr m) = Ok s' /\
    READY C names cs (kk + u * n) s' /\ INV junk v C m0 N (kk + u * n) (mm s').
Proof.
  intros. eapply asm_sound; try eassumption; auto.
  - subst e. unfold at_blk. reflexivity.
  - apply ready_intro. assumption.
Qed.

(** A computable form of [room]: [t] blocks after the start of the last turn are ours. *)
Definition room_okb (sh : shape) (t : Z) (re we : list Z) : bool :=
  forallb (fun k => nth k re 0 <=? t * stride sh (PI k)) (seq 0 (List.length (sh_ins sh))) &&
  forallb (fun j => nth j we 0 <=? t * stride sh (PO j)) (seq 0 (List.length (sh_outs sh))).
Lemma room_ok : forall C m0 N kk t re we, WF C m0 N -> 0 <= kk -> kk + t <= N ->
  room_okb (cf_sh C) t re we = true -> room C m0 N kk re we.
Proof.
  intros C m0 N kk t re we W Hk HN H. unfold room_okb in H. apply andb_true_iff in H.
  destruct H as [H1 H2]. rewrite forallb_forall in H1, H2.
  apply (room_exact C m0 N kk t); auto.
  - intros k Hk'. specialize (H1 k). rewrite in_seq in H1. lia.
  - intros j Hj. specialize (H2 j). rewrite in_seq in H2. lia.
Qed.

(** The same when the input sections follow one another: then a read may run on
    into the sections after it. *)
Definition room_contigb (sh : shape) (t : Z) (re we : list Z) : bool :=
  forallb (fun k => nth k re 0 <=? t * (soff sh (PI (List.length (sh_ins sh))) - soff sh (PI k)))
    (seq 0 (List.length (sh_ins sh))) &&
  forallb (fun j => nth j we 0 <=? t * stride sh (PO j)) (seq 0 (List.length (sh_outs sh))) &&
  forallb (fun x => 0 <=? x) (sh_ins sh).
Lemma sum_firstn_S : forall l k, (k < List.length l)%nat ->
  fold_right Z.add 0 (firstn (S k) l) = fold_right Z.add 0 (firstn k l) + nth k l 0.
Proof.
  induction l as [|x l IH]; intros [|k] H; cbn [List.length] in H; try lia.
  - cbn. lia.
  - cbn [firstn fold_right nth] in *. rewrite IH by lia. lia.
Qed.
Lemma sum_firstn_mono : forall l a b, (a <= b)%nat -> Forall (fun x => 0 <= x) l ->
  fold_right Z.add 0 (firstn a l) <= fold_right Z.add 0 (firstn b l).
Proof.
  induction l as [|x l IH]; intros [|a] [|b] H F; cbn [firstn fold_right]; try lia.
  - inversion F; subst. specialize (IH 0%nat b ltac:(lia) H3). cbn [firstn fold_right] in IH. lia.
  - inversion F; subst. specialize (IH a b ltac:(lia) H3). lia.
Qed.
Lemma room_contig : forall C m0 N kk t re we, WF C m0 N -> CONTIG C N -> 0 <= kk -> 0 <= t -> kk + t <= N ->
  room_contigb (cf_sh C) t re we = true -> room C m0 N kk re we.
Proof.
  intros C m0 N kk t re we W HC Hk Ht HN H. unfold room_contigb in H.
  apply andb_true_iff in H. destruct H as [H H3]. apply andb_true_iff in H. destruct H as [H1 H2].
  rewrite forallb_forall in H1, H2, H3.
  assert (F : Forall (fun x => 0 <= x) (sh_ins (cf_sh C))).
  { apply Forall_forall. intros x Hx. specialize (H3 x Hx). lia. }
  split.
  - intros k Hk'. specialize (H1 k). rewrite in_seq in H1.
    remember (List.length (sh_ins (cf_sh C))) as L eqn:EL.
    destruct L as [|L]; [lia|].
    destruct (wf_in _ _ _ W L ltac:(lia)) as (_ & _ & _ & W4).
    assert (EC : base C (PI L) = padd (base C (PI 0)) (N * soff (cf_sh C) (PI L))).
    { apply (HC (PI L)). cbn [pid_ok]. rewrite <- EL. apply Nat.ltb_lt. lia. }
    assert (EC' : base C (PI k) = padd (base C (PI 0)) (N * soff (cf_sh C) (PI k))).
    { apply (HC (PI k)). cbn [pid_ok]. rewrite <- EL. apply Nat.ltb_lt. lia. }
    unfold at_blk. rewrite EC in W4. rewrite EC'. cbn [padd p_buf p_off] in *.
    assert (ES : soff (cf_sh C) (PI (S L)) = soff (cf_sh C) (PI L) + stride (cf_sh C) (PI L)).
    { cbn [soff stride]. apply sum_firstn_S. lia. }
    assert (ES' : soff (cf_sh C) (PI k) + stride (cf_sh C) (PI k) <= soff (cf_sh C) (PI (S L))).
    { cbn [stride]. unfold soff. rewrite <- sum_firstn_S by lia. apply sum_firstn_mono; [lia|exact F]. }
    rewrite ES in *.
    assert (0 <= stride (cf_sh C) (PI k)).
    { cbn [stride]. rewrite Forall_nth in F. apply F. lia. }
    specialize (H1 ltac:(lia)). nia.
  - intros j Hj. specialize (H2 j). rewrite in_seq in H2. specialize (H2 ltac:(lia)).
    destruct (wf_out _ _ _ W j Hj) as (_ & _ & W3 & _). nia.
Qed.

(** How many bytes a body moves a pointer, and how many blocks from the start of
    a turn the body may touch. *)
Fixpoint adv (x : string) (body : list instr) : Z :=
  match body with
  | [] => 0
  | IAdd p k :: r | IAddAsm p k :: r => (if String.eqb x p then k else 0) + adv x r
  | _ :: r => adv x r
  end.
Definition room_t (sh : shape) (re we : list Z) : Z :=
  fold_right Z.max 0
    (map (fun '(k, e) => (e + stride sh (PI k) - 1) / stride sh (PI k)) (combine (seq 0 (List.length re)) re) ++
     map (fun '(j, e) => (e + stride sh (PO j) - 1) / stride sh (PO j)) (combine (seq 0 (List.length we)) we)).

(** ** Tactics *)

Ltac pid_of C p :=
  lazymatch p with
  | base C ?x => x
  | padd ?q _ => pid_of C q
  end.
(** from the pointer list of a loop call, the names environment *)
Ltac names_of C l :=
  lazymatch l with
  | nil => constr:(@nil (string * pid))
  | cons (?s, ?p) ?l' =>
      let x := pid_of C p in let r := names_of C l' in constr:(cons (s, x) r)
  end.

(** strides of the concrete shape, as numbers *)
Ltac kstride :=
  repeat match goal with
  | |- context [stride ?sh ?x] => let r := eval vm_compute in (stride sh x) in change (stride sh x) with r
  | |- context [soff ?sh ?x] => let r := eval vm_compute in (soff sh x) in change (soff sh x) with r
  end.
Ltac klia := cbn [cf_sh]; kstride; lia.

(** what the CPU features known so far imply *)
Ltac know P H := lazymatch goal with _ : P |- _ => fail | _ => let h := fresh "F" in pose proof (H : P) as h end.
Ltac ksat :=
  repeat match goal with
  | K : cpu_ok ?c, H : has_sse2 ?c = true |- _ => know (c_sse2 c = true) (has_sse2_ok c K H)
  | K : cpu_ok ?c, H : is_x64 ?c = true |- _ => know (c_sse2 c = true) (ok_x64 c K H)
  | H : is_x86 ?c = true, H' : is_x64 ?c = false |- _ => know (is_i686 c = true) (arch_i686 c H H')
  | V : vl_ok ?c = true, H : c_avx512bw ?c = true |- _ => know (c_avx512vl c = true) (vl_use c V H)
  | H : has_ssse3 ?c = true |- _ => change (c_ssse3 c = true) in H
  | H : has_avx2 ?c = true |- _ => change (c_avx2 c = true) in H
  | H : has_avx512f ?c = true |- _ => change (c_avx512f c = true) in H
  | H : has_avx512bw ?c = true |- _ => change (c_avx512bw c = true) in H
  | H : has_avx512vl ?c = true |- _ => change (c_avx512vl c = true) in H
  | H : has_avx512vbmi ?c = true |- _ => change (c_avx512vbmi c = true) in H
  | K : cpu_ok ?c, H : c_ssse3 ?c = true |- _ => know (c_sse2 c = true) (ok_ssse3 c K H)
  | K : cpu_ok ?c, H : c_avx2 ?c = true |- _ => know (c_ssse3 c = true) (ok_avx2 c K H)
  | K : cpu_ok ?c, H : c_avx512f ?c = true |- _ => know (c_avx2 c = true) (ok_512f c K H)
  | K : cpu_ok ?c, H : c_avx512bw ?c = true |- _ => know (c_avx512f c = true) (ok_512bw c K H)
  | K : cpu_ok ?c, H : c_avx512vl ?c = true |- _ => know (c_avx512f c = true) (ok_512vl c K H)
  | K : cpu_ok ?c, H : c_avx512vbmi ?c = true |- _ => know (c_avx512bw c = true) (ok_512vbmi c K H)
  end.
Ltac kfeat :=
  ksat;
  repeat match goal with H : ?b = true |- context [?b] => rewrite H end;
  cbn [andb orb negb vok]; solve [reflexivity].
Ltac kpre :=
  unfold any_n, nz_debug in *; cbv beta;
  solve [exact I | assumption | lia | intros; lia
        | intros _; match goal with |- negb (vnum ?v =? 0) = true => destruct v; solve [reflexivity | discriminate] end
        | let H := fresh in intros H; repeat match goal with K : c_debug _ = true -> _ |- _ => specialize (K H) end; cbn [andb]; lia].
(** contradictory answers about the target *)
Ltac karch :=
  exfalso; unfold is_x86, is_i686, is_x64 in *;
  match goal with H : context [c_arch ?c] |- _ => destruct (c_arch c); cbn in *; congruence end.

Ltac pnorm := repeat match goal with
  | H : CONTIG ?C _ |- context [base ?C (PO (S ?j))] => rewrite (H (PO (S j)) eq_refl)
  | H : CONTIG ?C _ |- context [base ?C (PI (S ?j))] => rewrite (H (PI (S j)) eq_refl)
  end; cbn [first_of cf_sh]; kstride; repeat rewrite padd_padd.
Ltac arg_eq := first [reflexivity | lia | apply f_equal; lia | pnorm; apply f_equal; lia].
Ltac ptr_eq := unfold at_blk; cbn [cf_sh]; kstride; apply f_equal; lia.
Ltac prs_eq := unfold names_at, at_blk; cbn [map cf_sh]; kstride; repeat (apply f_equal2; [apply f_equal; arg_eq | ]); reflexivity.

Ltac khop W HC I x ys :=
  lazymatch ys with
  | nil => fail
  | cons ?y ?ys' =>
      first [ rewrite (ptr_hop_ok _ _ _ _ _ _ _ x y _ _ W HC I) by (solve [reflexivity | klia])
            | khop W HC I x ys' ]
  end.
Ltac kpadd :=
  match goal with
  | W : WF ?C _ ?N, HC : CONTIG ?C ?N, I : INV _ _ ?C _ _ _ ?m
    |- exists m', bind (ptr_add ?m (padd (base ?C (PO ?x)) _) _) _ = _ /\ _ =>
      khop W HC I (PO x) constr:([PO 1; PO 2; PO 3; PO 4; PO 5; PO 6])
  | W : WF ?C _ ?N, HC : CONTIG ?C ?N, I : INV _ _ ?C _ _ _ ?m
    |- exists m', bind (ptr_add ?m (padd (base ?C (PI ?x)) _) _) _ = _ /\ _ =>
      khop W HC I (PI x) constr:([PI 1; PI 2; PI 3; PI 4; PI 5; PI 6])
  | W : WF ?C _ _, I : INV _ _ ?C _ _ _ ?m |- exists m', bind (ptr_add ?m (padd (base ?C _) _) _) _ = _ /\ _ =>
      rewrite (ptr_add_ok _ _ _ _ _ _ _ _ _ _ W I) by (solve [reflexivity | klia])
  end; cbn [bind].

Ltac kstep_ok :=
  lazymatch goal with
  | |- exists m', bind (cpu_has _ _) _ = _ /\ _ => rewrite cpu_has_ok by kfeat; cbn [bind]
  | |- exists m', bind (debug_assert _ _ _) _ = _ /\ _ => rewrite debug_assert_ok by kpre; cbn [bind]
  | |- exists m', bind (usub _ _) _ = _ /\ _ => rewrite usub_ok by klia; cbn [bind]
  | |- exists m', bind (ptr_diff _ _) _ = _ /\ _ => rewrite ptr_diff_ok by klia; cbn [bind]
  | |- exists m', bind (ptr_ltb _ _) _ = _ /\ _ => rewrite ptr_ltb_ok; cbn [bind]
  | |- exists m', bind (ptr_add _ _ _) _ = _ /\ _ => kpadd
  | |- exists m', bind (if vnum ?v =? 1 then Ok V1 else _) _ = _ /\ _ =>
      rewrite (variant_enum_ok v) by kfeat; cbn [bind]
  | |- exists m', bind (if 1 =? 1 then Ok V1 else _) _ = _ /\ _ => cbn [bind Z.eqb Pos.eqb]
  | R : READY _ _ _ _ ?s |- exists m', bind (getp ?s _) _ = _ /\ _ =>
      erewrite (ready_getp _ _ _ _ _ _ _ R) by reflexivity; cbn [bind cf_sh]
  | |- exists m', (let x := _ in _) = _ /\ _ => cbv zeta
  | |- exists m', bind (bind _ _) _ = _ /\ _ => rewrite bind_assoc
  | |- exists m', bind (Ok _) _ = _ /\ _ => cbn [bind]
  end.
Ltac kgo := cbv zeta; repeat (kstep_ok; cbv zeta).

(** Run a loop for [n] turns of [u] blocks. *)
Ltac kloop_with step u n :=
  lazymatch goal with
  | W : WF ?C ?m0 ?N, I : INV ?j ?v ?C ?m0 ?N ?kk ?m
    |- exists m', bind (_ ?j ?vt ?body ?x ?e (St ?cs ?prs ?m)) _ = _ /\ _ =>
      let names := names_of C prs in
      let r := eval vm_compute in (check (cf_sh C) u cs names body) in
      lazymatch r with
      | Some (?re, ?we) =>
          let s := fresh "s" in let X := fresh "X" in let R := fresh "R" in let I' := fresh "I" in
          let HC := fresh "HC" in
          assert (HC : check (cf_sh C) u cs names body = Some (re, we)) by (vm_compute; reflexivity);
          let px := lazymatch eval vm_compute in (look names x) with Some ?q => q end in
          let t := eval vm_compute in (room_t (cf_sh C) re we) in
          destruct (step j v C m0 N u cs names body re we x px kk n e prs m) as (s & X & R & I');
          [exact W | solve [intros _; apply vok_ok; assumption 
                           | let H := fresh in intros _ H; discriminate H
                           | let H := fresh in intros H; vm_compute in H; discriminate H]
          | exact HC | lia | reflexivity | reflexivity | reflexivity
          | klia | klia | klia
          | let Hp := fresh in intros Hp;
            first [ apply (room_ok C m0 N _ t _ _ W); [klia | klia | vm_compute; reflexivity]
                  | lazymatch goal with HC' : CONTIG C N |- _ =>
                      apply (room_contig C m0 N _ u _ _ W HC'); [klia | klia | klia | vm_compute; reflexivity] end ]
          | ptr_eq | prs_eq | exact I | ];
          clear HC; cbn [vnum] in X; rewrite X; clear X I; cbn [bind]
      | _ => fail "check failed" x
      end
  end.
(** ... finding [u] and [n] from the body and the end pointer. *)
Ltac kloop_auto step :=
  try (lazymatch goal with |- exists m', bind (_ _ _ (_ (is_x64 ?c)) _ _ _) _ = _ /\ _ => destruct (is_x64 c) eqn:? end);
  lazymatch goal with
  | W : WF ?C ?m0 ?N, I : INV ?j ?v ?C ?m0 ?N ?kk ?m
    |- exists m', bind (_ ?j ?vt ?body ?x ?e (St ?cs ?prs ?m)) _ = _ /\ _ =>
      let names := names_of C prs in
      let px := lazymatch eval vm_compute in (look names x) with Some ?q => q end in
      let s := eval vm_compute in (stride (cf_sh C) px) in
      let u := eval vm_compute in (adv x body / s) in
      lazymatch e with
      | padd (base C px) ?E =>
          let E' := eval cbn [cf_sh] in E in
          let q := fresh "q" in let Hq := fresh "Hq" in let Hq0 := fresh "Hq" in
          pose (q := (E' / s - kk) / u);
          assert (Hq : E' = (kk + u * q) * s) by (subst q; kstride; lia);
          assert (Hq0 : 0 <= q) by (subst q; kstride; lia);
          clearbody q; revert Hq; kstride; intros Hq;
          kloop_with step u q
      end
  end.

(** Call a function that has a [SPEC]. *)
Ltac kcall_spec lem n :=
  lazymatch goal with
  | W : WF (Conf ?sh ?ins ?outs) ?m0 ?N, I : INV ?j ?v (Conf ?sh ?ins ?outs) ?m0 ?N ?kk ?m, K : cpu_ok ?c
    |- exists m', bind ?call _ = _ /\ _ =>
      let m1 := fresh "m" in let X := fresh "X" in let I' := fresh "I" in
      destruct (lem ins outs m0 N kk n m K) as (m1 & X & I');
      [kfeat | kpre | exact W | klia | klia | klia | exact I | ];
      cbv beta in X;
      lazymatch type of X with ?l = _ => replace call with l by (kstride; f_equal; arg_eq) end;
      rewrite X; clear X I; cbn [bind]
  end.
Ltac kcall_tspec lem :=
  lazymatch goal with
  | W : WF (Conf ?sh ?ins ?outs) ?m0 ?N, I : INV ?j ?v (Conf ?sh ?ins ?outs) ?m0 ?N 0 ?m, K : cpu_ok ?c,
    HC : CONTIG (Conf ?sh ?ins ?outs) ?N
    |- exists m', bind ?call _ = _ /\ _ =>
      let m1 := fresh "m" in let X := fresh "X" in let I' := fresh "I" in
      destruct (lem ins outs m0 N m K) as (m1 & X & I');
      [kfeat | kpre | exact W | exact HC | klia | exact I | ];
      cbv beta in X;
      lazymatch type of X with ?l = _ => replace call with l by (kstride; f_equal; arg_eq) end;
      rewrite X; clear X I; cbn [bind]
  end.
Ltac kcall_with lem :=
  let T := type of lem in
  lazymatch T with
  | TSPEC _ _ _ _ _ _ => kcall_tspec lem
  | SPEC _ _ _ _ _ _ =>
      lazymatch goal with
      | I : INV _ _ _ _ _ ?kk ?m |- exists m', _ /\ INV _ _ _ _ _ ?k' m' => kcall_spec lem (k' - kk)
      end
  end.
Ltac kcall L := lazymatch goal with K : cpu_ok ?c |- _ => kcall_with (L c) end.
Ltac kcallv L :=
  lazymatch goal with K : cpu_ok ?c, I : INV _ ?v _ _ _ _ _ |- _ => kcall_with (L c v) end.
Ltac kdone :=
  lazymatch goal with
  | I : INV _ _ _ _ _ ?k ?m |- exists m', Ok _ = Ok m' /\ INV _ _ _ _ _ ?k' m' =>
      exists m; split; [reflexivity | first [exact I | let H := fresh in assert (H : k = k') by lia; rewrite H in I; exact I]]
  end.

Ltac kauto cl :=
  kgo;
  lazymatch goal with
  | |- exists m', Ok _ = Ok m' /\ _ => first [kdone | karch]
  | |- exists m', (if vnum ?v =? 1 then _ else _) = Ok _ /\ _ =>
      destruct v; try (exfalso; match goal with H : vok VNone = true |- _ => discriminate H end);
      cbn [vnum Z.eqb Pos.eqb]; kauto cl
  | |- exists m', (if ?b then _ else _) = Ok _ /\ _ => destruct b eqn:?; try solve [karch]; kauto cl
  | |- exists m', bind (if ?b then _ else _) _ = Ok _ /\ _ => destruct b eqn:?; try solve [karch]; kauto cl
  | |- exists m', (match ?v with V1 => _ | V2 => _ | V3 => _ | VNone => _ end) = Ok _ /\ _ =>
      destruct v; try (exfalso; match goal with H : vok VNone = true |- _ => discriminate H end); kauto cl
  | |- exists m', bind (while_lt _ _ _ _ _ _) _ = _ /\ _ => kloop_auto while_step; kauto cl
  | |- exists m', bind (asm_jb _ _ _ _ _ _) _ = _ /\ _ => kloop_auto asm_step; kauto cl
  | |- exists m', bind _ _ = _ /\ _ => cl; kauto cl
  | |- _ => idtac
  end.
Ltac ksplit := repeat match goal with H : _ && _ = true |- _ => apply andb_true_iff in H; destruct H end.
Ltac kstart f :=
  first
    [ intros ins outs m0 N kk n m K Hf Hp W Hkk Hn HN I
    | intros ins outs m0 N m K Hf Hp W HC HN I ];
  cbv beta; unfold f; ksplit; repeat rewrite padd_padd;
  repeat match goal with |- context [Z.ldiff ?a ?c] =>
    let k := eval vm_compute in (Z.log2 (c + 1)) in
    let t := eval vm_compute in (2 ^ k) in
    replace (Z.ldiff a c) with (a - a mod t) by (symmetry; apply (ldiff_low k); [lia | reflexivity])
  end.
