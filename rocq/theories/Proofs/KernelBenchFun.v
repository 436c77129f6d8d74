(** The loops of Model/KernelBench.v, and tactics that know about them. *)
From Verif Require Import Base.Bytes Base.Res Model.Color565 Model.Ycc Model.Kernel Model.KernelBench
  Proofs.LanesFacts Proofs.KernelCheck Proofs.KernelLoop Proofs.KernelFun.
From Coq Require Import ZifyBool ZifyNat.

Section Loops.
Variables (junk : byte) (v : variant) (C : conf) (m0 : mem) (N : Z).
Variables (u : Z) (cs : env (list byte)) (names : env pid) (body : list instr) (re we : list Z).
Hypothesis W : WF C m0 N.
Hypothesis HV : existsb uses_ycc body = true -> v <> VNone.
Hypothesis HC : check (cf_sh C) u cs names body = Some (re, we).
Hypothesis Hu : 0 < u.

(** [n] turns *)
Lemma times_go_sound : forall n kk s, 0 <= kk -> kk + u * Z.of_nat n <= N ->
  ((0 < n)%nat -> room C m0 N (kk + u * (Z.of_nat n - 1)) re we) ->
  READY C names cs kk s -> INV junk v C m0 N kk (mm s) ->
  exists s', times_go n junk (vnum v) body s = Ok s' /\
    READY C names cs (kk + u * Z.of_nat n) s' /\ INV junk v C m0 N (kk + u * Z.of_nat n) (mm s').
Proof.
  induction n as [|n IH]; intros kk s Hkk HN HR RD I.
  - replace (kk + u * Z.of_nat 0) with kk in * by lia. exists s. auto.
  - cbn [times_go].
    destruct (iter_sound junk v C m0 N (cf_sh C) u cs names body re we eq_refl W HV HC kk s Hkk
                ltac:(lia) ltac:(nia)) as (s1 & X & RD1 & I1).
    + eapply room_mono; [exact W| |apply HR; lia]. nia.
    + exact RD.
    + exact I.
    + rewrite X. cbn [bind].
      destruct (IH (kk + u) s1) as (s2 & X2 & RD2 & I2); try assumption; try lia.
      * intros Hn. replace (kk + u + u * (Z.of_nat n - 1)) with (kk + u * (Z.of_nat (S n) - 1)) by lia. apply HR. lia.
      * exists s2. replace (kk + u * Z.of_nat (S n)) with (kk + u + u * Z.of_nat n) by lia. auto.
Qed.

Variables (x : string) (px : pid) (k : Z) (e1 e2 : ptr).
Hypothesis Hx : look names x = Some px.
Hypothesis He1 : p_buf e1 = p_buf (base C px).
Hypothesis He2 : p_buf e2 = p_buf (base C px).
Hypothesis Hst : 0 < stride (cf_sh C) px.
Hypothesis Hk : 0 <= k.

Lemma buf_eqb_refl : forall b, buf_eqb b b = true.
Proof. intros []; reflexivity. Qed.

(** [n] turns of the two-sided loop, after which the sum is [q]. *)
Lemma while2_go_turns : forall n fuel kk s, (n <= fuel)%nat -> 0 <= kk -> kk + u * Z.of_nat n <= N ->
  ((0 < n)%nat -> room C m0 N (kk + u * (Z.of_nat n - 1)) re we) ->
  ((0 < n)%nat -> p_off (at_blk C (kk + u * (Z.of_nat n - 1)) px) + k < p_off e1) ->
  ((0 < n)%nat -> p_off (at_blk C (kk + u * (Z.of_nat n - 1)) px) < p_off e2) ->
  0 <= p_off (base C px) -> (forall m' kk', INV junk v C m0 N kk' m' -> p_off e1 <= zlen (buf_of m' (p_buf (base C px)))) ->
  READY C names cs kk s -> INV junk v C m0 N kk (mm s) ->
  exists s' fuel', while2_go fuel junk (vnum v) body x k e1 e2 s = while2_go fuel' junk (vnum v) body x k e1 e2 s' /\
    READY C names cs (kk + u * Z.of_nat n) s' /\ INV junk v C m0 N (kk + u * Z.of_nat n) (mm s').
Proof.
  induction n as [|n IH]; intros fuel kk s Hf Hkk HN HR H1 H2 Hb Hl RD I.
  - replace (kk + u * Z.of_nat 0) with kk in * by lia. exists s, fuel. auto.
  - destruct fuel as [|fuel]; [lia|]. cbn [while2_go].
    rewrite (ready_getp _ _ _ _ _ _ _ RD Hx). cbn [bind].
    assert (L1 : p_off (at_blk C kk px) + k < p_off e1).
    { specialize (H1 ltac:(lia)). unfold at_blk in *. cbn [padd p_off] in *. nia. }
    assert (L2 : p_off (at_blk C kk px) < p_off e2).
    { specialize (H2 ltac:(lia)). unfold at_blk in *. cbn [padd p_off] in *. nia. }
    unfold at_blk in L1, L2. cbn [padd p_off] in L1, L2.
    unfold ptr_add. cbn [padd p_off p_buf]. specialize (Hl _ _ I) as Hl'.
    match goal with |- context [if ?b then Ok _ else _] => replace b with true by nia end. cbn [bind].
    unfold ptr_ltb. cbn [padd p_off p_buf]. rewrite He1, He2, !buf_eqb_refl. cbn [bind].
    replace (p_off (base C px) + kk * stride (cf_sh C) px + k <? p_off e1) with true by lia. cbn [bind].
    replace (p_off (base C px) + kk * stride (cf_sh C) px <? p_off e2) with true by lia.
    destruct (iter_sound junk v C m0 N (cf_sh C) u cs names body re we eq_refl W HV HC kk s Hkk
                ltac:(lia) ltac:(nia)) as (s1 & X & RD1 & I1).
    + eapply room_mono; [exact W| |apply HR; lia]. nia.
    + exact RD.
    + exact I.
    + rewrite X. cbn [bind].
      destruct (IH fuel (kk + u) s1) as (s2 & f2 & X2 & RD2 & I2); try assumption; try lia.
      * intros Hn. replace (kk + u + u * (Z.of_nat n - 1)) with (kk + u * (Z.of_nat (S n) - 1)) by lia. apply HR. lia.
      * intros Hn. replace (kk + u + u * (Z.of_nat n - 1)) with (kk + u * (Z.of_nat (S n) - 1)) by lia. apply H1. lia.
      * intros Hn. replace (kk + u + u * (Z.of_nat n - 1)) with (kk + u * (Z.of_nat (S n) - 1)) by lia. apply H2. lia.
      * exists s2, f2. replace (kk + u * Z.of_nat (S n)) with (kk + u + u * Z.of_nat n) by lia. auto.
Qed.
End Loops.

Lemma times_step : forall junk v C m0 N u cs names body re we kk n pr m,
  WF C m0 N -> (existsb uses_ycc body = true -> v <> VNone) ->
  check (cf_sh C) u cs names body = Some (re, we) -> 0 < u ->
  0 <= kk -> 0 <= n -> kk + u * n <= N ->
  (0 < n -> room C m0 N (kk + u * (n - 1)) re we) -> pr = names_at C kk names ->
  INV junk v C m0 N kk m ->
  exists s', times junk (vnum v) body n (St cs pr m) = Ok s' /\
    READY C names cs (kk + u * n) s' /\ INV junk v C m0 N (kk + u * n) (mm s').
Proof.
  intros junk v C m0 N u cs names body re we kk n pr m W HV HC Hu Hkk Hn HN HR -> I.
  destruct (times_go_sound junk v C m0 N u cs names body re we W HV HC Hu (Z.to_nat n) kk (St cs (names_at C kk names) m)) as (s' & X & Y & Z0);
    rewrite ?Z2Nat.id in * by lia; try assumption; try lia.
  - intros. apply HR. lia.
  - apply ready_intro. reflexivity.
  - exists s'. auto.
Qed.

(** Straight-line code that leaves its pointers where they are: [tl] is what would
    move them on. *)
Lemma exec_app : forall junk vt a b s, exec junk vt (a ++ b) s = bind (exec junk vt a s) (exec junk vt b).
Proof.
  intros junk vt. induction a as [|i a IH]; intros b s; cbn [app exec bind]; [reflexivity|].
  destruct (exec1 junk vt i s); cbn [bind]; [apply IH|reflexivity|reflexivity].
Qed.
Definition is_add (i : instr) : bool := match i with IAddAsm _ _ => true | _ => false end.
Lemma adds_mem : forall junk vt tl s s', forallb is_add tl = true -> exec junk vt tl s = Ok s' -> mm s' = mm s.
Proof.
  intros junk vt. induction tl as [|i tl IH]; intros s s' H E; cbn [exec] in E; [congruence|].
  cbn [forallb] in H. apply andb_true_iff in H. destruct H as [H1 H2]. destruct i; try discriminate H1.
  cbn [exec1] in E. destruct (look (pr s) p); cbn [oget bind] in E; [|discriminate E].
  apply (IH _ _ H2) in E. exact E.
Qed.
Lemma once_step : forall junk v C m0 N u cs names body tl re we kk pr m,
  WF C m0 N -> (existsb uses_ycc (body ++ tl) = true -> v <> VNone) ->
  check (cf_sh C) u cs names (body ++ tl) = Some (re, we) -> 0 < u -> forallb is_add tl = true ->
  0 <= kk -> kk + u <= N -> room C m0 N kk re we -> pr = names_at C kk names ->
  INV junk v C m0 N kk m ->
  exists s', times junk (vnum v) body 1 (St cs pr m) = Ok s' /\ INV junk v C m0 N (kk + u) (mm s').
Proof.
  intros junk v C m0 N u cs names body tl re we kk pr m W HV HC Hu Ht Hkk HN HR -> I.
  destruct (iter_sound junk v C m0 N (cf_sh C) u cs names (body ++ tl) re we eq_refl W HV HC kk (St cs (names_at C kk names) m) Hkk
              ltac:(lia) HN HR ltac:(apply ready_intro; reflexivity) I) as (s1 & X & _ & I1).
  rewrite exec_app in X. unfold times. change (Z.to_nat 1) with 1%nat. cbn [times_go].
  destruct (exec junk (vnum v) body (St cs (names_at C kk names) m)) as [s2| |]; try discriminate X. cbn [bind] in *.
  exists s2. split; [reflexivity|]. rewrite <- (adds_mem _ _ _ _ _ Ht X). exact I1.
Qed.

(** A loop whose end pointer lies inside its last turn. *)
Lemma while_step_up : forall junk v C m0 N u cs names body re we x px kk n d pr m,
  WF C m0 N -> (existsb uses_ycc body = true -> v <> VNone) ->
  check (cf_sh C) u cs names body = Some (re, we) -> 0 < u ->
  look names x = Some px -> pid_ok (cf_sh C) px = true -> 0 < stride (cf_sh C) px ->
  0 <= kk -> 0 <= n -> kk + u * n <= N ->
  (0 < n -> room C m0 N (kk + u * (n - 1)) re we) ->
  d <= (kk + u * n) * stride (cf_sh C) px -> (0 < n -> (kk + u * (n - 1)) * stride (cf_sh C) px < d) -> pr = names_at C kk names ->
  INV junk v C m0 N kk m ->
  exists s', while_lt junk (vnum v) body x (padd (base C px) d) (St cs pr m) = Ok s' /\
    READY C names cs (kk + u * n) s' /\ INV junk v C m0 N (kk + u * n) (mm s').
Proof.
  intros junk v C m0 N u cs names body re we x px kk n d pr m W HV HC Hu Hx Hpx Hst Hkk Hn HN HR Hd Hd' -> I.
  assert (RD : READY C names cs kk (St cs (names_at C kk names) m)) by (apply ready_intro; reflexivity).
  pose proof (enough_fuel junk v C m0 N u names body W HV Hu x px (padd (base C px) d) Hx eq_refl Hpx Hst kk n (St cs (names_at C kk names) m) Hkk ltac:(lia) HN I) as EF.
  destruct (while_go_sound junk v C m0 N u cs names body re we W HV HC Hu x px (padd (base C px) d) Hx eq_refl
     (Z.to_nat n) (loop_fuel (St cs (names_at C kk names) m) (padd (base C px) d)) kk (St cs (names_at C kk names) m)) as (s' & X & Y & Z0); auto;
    rewrite ?Z2Nat.id in * by lia; try assumption; try lia; try (unfold at_blk; cbn [padd p_off]; lia).
  - intros. apply HR. lia.
  - exists s'. unfold while_lt. auto.
Qed.

(** ** Tactics *)

Ltac kvar := solve [intros _; apply vok_ok; assumption
                   | let H := fresh in intros _ H; discriminate H
                   | let H := fresh in intros H; vm_compute in H; discriminate H].
(** a counting loop, [u] blocks per turn *)
Ltac ktimes u :=
  lazymatch goal with
  | W : WF ?C ?m0 ?N, I : INV ?j ?v ?C ?m0 ?N ?kk ?m
    |- exists m', bind (times ?j ?vt ?body ?n (St ?cs ?prs ?m)) _ = _ /\ _ =>
      let names := names_of C prs in
      let r := eval vm_compute in (check (cf_sh C) u cs names body) in
      lazymatch r with
      | Some (?re, ?we) =>
          let s := fresh "s" in let X := fresh "X" in let R := fresh "R" in let I' := fresh "I" in
          let HC := fresh "HC" in
          assert (HC : check (cf_sh C) u cs names body = Some (re, we)) by (vm_compute; reflexivity);
          let t := eval vm_compute in (room_t (cf_sh C) re we) in
          destruct (times_step j v C m0 N u cs names body re we kk n prs m) as (s & X & R & I');
          [exact W | kvar | exact HC | lia | klia | klia | klia
          | let Hp := fresh in intros Hp; apply (room_ok C m0 N _ t _ _ W); [klia | klia | vm_compute; reflexivity]
          | prs_eq | exact I | ];
          clear HC; cbn [vnum] in X; rewrite X; clear X I; cbn [bind]
      end
  end.
Ltac adds_of C l :=
  lazymatch l with
  | nil => constr:(@nil instr)
  | cons (?s, ?p) ?l' =>
      let x := pid_of C p in let d := eval vm_compute in (stride (cf_sh C) x) in
      let r := adds_of C l' in constr:(cons (IAddAsm s d) r)
  end.
(** the last block on its own *)
Ltac konce :=
  lazymatch goal with
  | W : WF ?C ?m0 ?N, I : INV ?j ?v ?C ?m0 ?N ?kk ?m
    |- exists m', bind (times ?j ?vt ?body 1 (St ?cs ?prs ?m)) _ = _ /\ _ =>
      let names := names_of C prs in
      let tl := adds_of C prs in
      let r := eval vm_compute in (check (cf_sh C) 1 cs names (body ++ tl)) in
      lazymatch r with
      | Some (?re, ?we) =>
          let s := fresh "s" in let X := fresh "X" in let I' := fresh "I" in let HC := fresh "HC" in
          assert (HC : check (cf_sh C) 1 cs names (body ++ tl) = Some (re, we)) by (vm_compute; reflexivity);
          let t := eval vm_compute in (room_t (cf_sh C) re we) in
          destruct (once_step j v C m0 N 1 cs names body tl re we kk prs m) as (s & X & I');
          [exact W | kvar | exact HC | lia | reflexivity | klia | klia
          | apply (room_ok C m0 N _ t _ _ W); [klia | klia | vm_compute; reflexivity]
          | prs_eq | exact I | ];
          clear HC; cbn [vnum] in X; rewrite X; clear X I; cbn [bind]
      end
  end.
(** a loop that ends inside its last turn: [u] blocks per turn, [n] turns *)
Ltac kwhile_up u n :=
  lazymatch goal with
  | W : WF ?C ?m0 ?N, I : INV ?j ?v ?C ?m0 ?N ?kk ?m
    |- exists m', bind (while_lt ?j ?vt ?body ?x (padd (base ?C ?px) ?d) (St ?cs ?prs ?m)) _ = _ /\ _ =>
      let names := names_of C prs in
      let r := eval vm_compute in (check (cf_sh C) u cs names body) in
      lazymatch r with
      | Some (?re, ?we) =>
          let s := fresh "s" in let X := fresh "X" in let R := fresh "R" in let I' := fresh "I" in
          let HC := fresh "HC" in
          assert (HC : check (cf_sh C) u cs names body = Some (re, we)) by (vm_compute; reflexivity);
          let t := eval vm_compute in (room_t (cf_sh C) re we) in
          destruct (while_step_up j v C m0 N u cs names body re we x px kk n d prs m) as (s & X & R & I');
          [exact W | kvar | exact HC | lia | reflexivity | reflexivity | reflexivity
          | klia | klia | klia
          | let Hp := fresh in intros Hp; apply (room_ok C m0 N _ t _ _ W); [klia | klia | vm_compute; reflexivity]
          | klia | intros; klia | prs_eq | exact I | ];
          clear HC; cbn [vnum] in X; rewrite X; clear X I; cbn [bind]
      end
  end.
Ltac ktimes_auto :=
  lazymatch goal with
  | W : WF ?C ?m0 ?N |- exists m', bind (times ?j ?vt ?body ?n (St ?cs (cons (?x, ?p) ?prs) ?m)) _ = _ /\ _ =>
      let px := pid_of C p in
      let u := eval vm_compute in (adv x body / stride (cf_sh C) px) in
      ktimes u
  end.

(** A pointer that leaves its own section but not the sections after it. *)
Lemma ptr_far_ok : forall junk v C m0 N k m x y a d,
  WF C m0 N -> CONTIG C N -> INV junk v C m0 N k m ->
  pid_ok (cf_sh C) x = true -> pid_ok (cf_sh C) y = true -> first_of x = first_of y ->
  0 <= a + d -> N * soff (cf_sh C) x + a + d <= N * (soff (cf_sh C) y + stride (cf_sh C) y) ->
  ptr_add m (padd (base C x) a) d = Ok (padd (base C x) (a + d)).
Proof.
  intros junk v C m0 N k m x y a d W HC I Hx Hy Hf H0 H1. unfold ptr_add. rewrite padd_padd. cbn [padd p_off p_buf].
  assert (H : forall z, pid_ok (cf_sh C) z = true -> 0 <= p_off (base C z) /\
              p_off (base C z) + N * stride (cf_sh C) z <= zlen (buf_of m (p_buf (base C z)))).
  { intros [i|j] Hz; cbn [pid_ok] in Hz.
    - destruct (wf_in _ _ _ W i ltac:(lia)) as (W1 & W2 & W3 & W4).
      rewrite (buf_of_inv m m0) by first [apply (inv_in _ _ _ _ _ _ _ I)|apply (inv_aux _ _ _ _ _ _ _ I)|exact W1].
      lia.
    - destruct (wf_out _ _ _ W j ltac:(lia)) as (W1 & W2 & W3 & W4).
      rewrite W1. cbn [buf_of]. rewrite (inv_len _ _ _ _ _ _ _ I). lia. }
  destruct (H x Hx) as [A _]. destruct (H y Hy) as [_ B].
  rewrite (HC y Hy) in B. rewrite (HC x Hx) in A |- *. rewrite <- Hf in B. cbn [padd p_off p_buf] in *.
  match goal with |- (if ?b then _ else _) = _ => replace b with true by lia end. reflexivity.
Qed.
Lemma padd_move : forall C N x y d, CONTIG C N -> pid_ok (cf_sh C) x = true -> pid_ok (cf_sh C) y = true -> first_of x = first_of y ->
  padd (base C x) d = padd (base C y) (N * soff (cf_sh C) x + d - N * soff (cf_sh C) y).
Proof. intros C N x y d HC Hx Hy Hf. rewrite (HC x Hx), (HC y Hy), Hf, !padd_padd. f_equal. lia. Qed.

Ltac kfar :=
  match goal with
  | W : WF ?C _ ?N, HC : CONTIG ?C ?N, I : INV _ _ ?C _ _ _ ?m
    |- exists m', bind (ptr_add ?m (padd (base ?C (PI ?x)) _) _) _ = _ /\ _ =>
      let l := eval vm_compute in (pred (List.length (sh_ins (cf_sh C)))) in
      rewrite (ptr_far_ok _ _ _ _ _ _ _ _ (PI l) _ _ W HC I) by (solve [reflexivity | klia])
  end; cbn [bind].
(** the end of a loop, said in the section of the loop's pointer *)
Ltac kend :=
  lazymatch goal with
  | W : WF ?C ?m0 ?N, HC : CONTIG ?C ?N
    |- exists m', bind (_ ?j ?vt ?body ?x (padd (base ?C ?pe) ?d) (St ?cs ?prs ?m)) _ = _ /\ _ =>
      let names := names_of C prs in
      let px := lazymatch eval vm_compute in (look names x) with Some ?q => q end in
      tryif constr_eq px pe then idtac
      else (rewrite (padd_move C N pe px d HC eq_refl eq_refl eq_refl); cbn [cf_sh]; kstride)
  | |- _ => idtac
  end.
Ltac kup_auto :=
  lazymatch goal with
  | W : WF ?C ?m0 ?N, I : INV ?j ?v ?C ?m0 ?N ?kk ?m
    |- exists m', bind (while_lt ?j ?vt ?body ?x (padd (base ?C ?px) ?d) (St ?cs ?prs ?m)) _ = _ /\ _ =>
      let s := eval vm_compute in (stride (cf_sh C) px) in
      let u := eval vm_compute in (adv x body / s) in
      let us := eval vm_compute in (u * s) in
      let d' := eval cbn [cf_sh] in d in
      let q := fresh "q" in let Hq := fresh "Hq" in
      pose (q := (Z.max 0 (d' - kk * s) + us - 1) / us);
      assert (Hq : 0 <= q /\ d' <= (kk + u * q) * s /\ (0 < q -> (kk + u * (q - 1)) * s < d')) by (subst q; kstride; lia);
      clearbody q; revert Hq; kstride; intros Hq; kwhile_up u q
  end.
Ltac kbench cl :=
  kgo;
  lazymatch goal with
  | |- exists m', Ok _ = Ok m' /\ _ => first [kdone | karch]
  | |- exists m', (if ?b then _ else _) = Ok _ /\ _ => kstride; match goal with |- context [if ?b1 then _ else _] => destruct b1 eqn:? end; try solve [karch]; kbench cl
  | |- exists m', bind (if ?b then _ else _) _ = Ok _ /\ _ => kstride; match goal with |- context [if ?b1 then _ else _] => destruct b1 eqn:? end; try solve [karch]; kbench cl
  | |- exists m', bind (ptr_add _ _ _) _ = _ /\ _ => kfar; kbench cl
  | |- exists m', bind (while_lt _ _ _ _ _ _) _ = _ /\ _ => kend; first [kloop_auto while_step | kup_auto]; kbench cl
  | |- exists m', bind (asm_jb _ _ _ _ _ _) _ = _ /\ _ => kend; kloop_auto asm_step; kbench cl
  | |- exists m', bind (times _ _ _ 1 _) _ = _ /\ _ => konce; kbench cl
  | |- exists m', bind (times _ _ _ _ _) _ = _ /\ _ => ktimes_auto; kbench cl
  | |- exists m', bind _ _ = _ /\ _ => cl; kbench cl
  | |- _ => idtac
  end.
