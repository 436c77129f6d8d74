(** Running a kernel loop body symbolically, once, for [u] blocks; and what that
    proves about the loop for any number of blocks. *)
From Verif Require Import Base.Bytes Base.Res Model.Color565 Model.Ycc Model.Kernel
  Proofs.LanesFacts Proofs.KernelCheck.
From Coq Require Import ZifyBool ZifyNat.

(** ** Shapes

    A shape says, per block: how far each input pointer advances, and for each
    output pointer which bytes the block contributes. *)
Record shape := Shape { sh_ins : list Z; sh_outs : list (list sb) }.

(** Input pointer number / output pointer number. *)
Inductive pid := PI (k : nat) | PO (j : nat).

Definition stride (sh : shape) (x : pid) : Z :=
  match x with
  | PI k => nth k (sh_ins sh) 0
  | PO j => zlen (nth j (sh_outs sh) [])
  end.
Definition pid_ok (sh : shape) (x : pid) : bool :=
  match x with
  | PI k => Nat.ltb k (List.length (sh_ins sh))
  | PO j => Nat.ltb j (List.length (sh_outs sh))
  end.

(** ** Symbolic execution *)

Record sst := SSt {
  sv : env (list sb);
  sp : env (pid * Z);
  slog : list (nat * Z * Z * list sb);  (* output, offset, length, bytes; newest first *)
  srd : list (nat * Z)                  (* input, end of the read *)
}.

Definition sexec1 (sh : shape) (u : Z) (i : instr) (s : sst) : option sst :=
  match i with
  | ILoad d p off n =>
      match look (sp s) p with
      | Some (PI k, dl) =>
          if (0 <=? dl + off) && (0 <=? n) && Nat.ltb k (List.length (sh_ins sh)) then
            Some (SSt ((d, map (SIn k) (zseq (dl + off) (Z.to_nat n))) :: sv s) (sp s) (slog s)
                      ((k, dl + off + n) :: srd s))
          else None
      | _ => None
      end
  | IStore p off n r =>
      match look (sp s) p, look (sv s) r with
      | Some (PO j, dl), Some l =>
          if (0 <=? dl + off) && (zlen l =? n) && Nat.ltb j (List.length (sh_outs sh)) then
            Some (SSt (sv s) (sp s) ((j, dl + off, n, l) :: slog s) (srd s))
          else None
      | _, _ => None
      end
  | IOp d o args =>
      match mapM (look (sv s)) args with
      | Some a =>
          match apply_op sdom o a with
          | Some l => Some (SSt ((d, l) :: sv s) (sp s) (slog s) (srd s))
          | None => None
          end
      | None => None
      end
  | IAdd p k =>
      match look (sp s) p with
      | Some (x, dl) =>
          if (0 <=? dl + k) && (dl + k <=? u * stride sh x) && pid_ok sh x then
            Some (SSt (sv s) ((p, (x, dl + k)) :: sp s) (slog s) (srd s))
          else None
      | None => None
      end
  | IAddAsm p k =>
      match look (sp s) p with
      | Some (x, dl) => Some (SSt (sv s) ((p, (x, dl + k)) :: sp s) (slog s) (srd s))
      | None => None
      end
  end.

Fixpoint sexec (sh : shape) (u : Z) (l : list instr) (s : sst) : option sst :=
  match l with
  | [] => Some s
  | i :: l' => match sexec1 sh u i s with Some s' => sexec sh u l' s' | None => None end
  end.

(** The last thing stored at offset [i] of output [j]. *)
Fixpoint slook (log : list (nat * Z * Z * list sb)) (j : nat) (i : Z) : option sb :=
  match log with
  | [] => None
  | (j', o, n, l) :: log' =>
      if Nat.eqb j j' && (o <=? i) && (i <? o + n) then nth_error l (Z.to_nat (i - o))
      else slook log' j i
  end.

(** A template for block [b] steps further on. *)
Fixpoint shift (sh : shape) (b : Z) (s : sb) : sb :=
  match s with
  | SIn k i => SIn k (b * nth k (sh_ins sh) 0 + i)
  | SCst c => SCst c
  | SJunk => SJunk
  | SYcc d p lo hi => SYcc d p (shift sh b lo) (shift sh b hi)
  end.

Fixpoint forallz_from (n : nat) (i : Z) (f : Z -> bool) : bool :=
  match n with O => true | S n' => f i && forallz_from n' (i + 1) f end.

Definition out_ok1 (sh : shape) (log : list (nat * Z * Z * list sb)) (j : nat) (t : list sb) (b : Z) : bool :=
  let w := zlen t in
  (fix go (t : list sb) (i : Z) : bool :=
     match t with
     | [] => true
     | s :: t' => match slook log j i with
                  | Some s' => sb_eqb s' (shift sh b s) && go t' (i + 1)
                  | None => false
                  end
     end) t (b * w).

Fixpoint no_junk (sh : shape) (s : sb) : bool :=
  match s with
  | SIn k i => Nat.ltb k (List.length (sh_ins sh)) && (0 <=? i) && (i <? nth k (sh_ins sh) 0)
  | SCst _ => true
  | SJunk => false
  | SYcc _ _ lo hi => no_junk sh lo && no_junk sh hi
  end.

(** Room needed past the position of each pointer at the start of an iteration. *)
Definition rext (s : sst) (k : nat) : Z :=
  fold_right (fun '(k', e) acc => if Nat.eqb k k' then Z.max e acc else acc) 0 (srd s).
Definition wext (s : sst) (j : nat) : Z :=
  fold_right (fun '(j', o, n, _) acc => if Nat.eqb j j' then Z.max (o + n) acc else acc) 0 (slog s).

Definition sb_list_eqb (a b : list sb) : bool :=
  (fix go a b := match a, b with
                 | [], [] => true
                 | x :: a', y :: b' => sb_eqb x y && go a' b'
                 | _, _ => false
                 end) a b.

(** [names] binds the pointer variables of the body to the pointers of the shape,
    [cs] the registers set up before the loop to their constants. *)
Definition sinit (cs : env (list byte)) (names : env pid) : sst :=
  SSt (map (fun '(r, l) => (r, map SCst l)) cs) (map (fun '(p, x) => (p, (x, 0))) names) [] [].

Definition check_end (sh : shape) (u : Z) (cs : env (list byte)) (names : env pid) (s : sst) : bool :=
  forallb (fun '(p, x) => match look (sp s) p with
                          | Some (PI k, d) => match x with PI k' => Nat.eqb k k' | _ => false end
                                              && (d =? u * stride sh x) && pid_ok sh x
                          | Some (PO k, d) => match x with PO k' => Nat.eqb k k' | _ => false end
                                              && (d =? u * stride sh x) && pid_ok sh x
                          | None => false
                          end) names
  && forallb (fun '(r, l) => match look (sv s) r with
                             | Some l' => sb_list_eqb l' (map SCst l)
                             | None => false
                             end) cs
  && forallb (fun '(j, t) => forallz_from (Z.to_nat u) 0 (out_ok1 sh (slog s) j t))
       (combine (seq 0 (List.length (sh_outs sh))) (sh_outs sh)).

(** The answer: read and write extents, one per pointer. *)
Definition check (sh : shape) (u : Z) (cs : env (list byte)) (names : env pid) (body : list instr)
  : option (list Z * list Z) :=
  match sexec sh u body (sinit cs names) with
  | Some s =>
      if check_end sh u cs names s then
        Some (map (rext s) (seq 0 (List.length (sh_ins sh))),
              map (wext s) (seq 0 (List.length (sh_outs sh))))
      else None
  | None => None
  end.

(** ** Configurations: a shape laid over actual memory *)

Record conf := Conf { cf_sh : shape; cf_ins : list ptr; cf_outs : list ptr }.
Definition null : ptr := Ptr BIn 0.
Definition base (C : conf) (x : pid) : ptr :=
  match x with PI k => nth k (cf_ins C) null | PO j => nth j (cf_outs C) null end.
(** Pointer [x] at the start of block [k]. *)
Definition at_blk (C : conf) (k : Z) (x : pid) : ptr := padd (base C x) (k * stride (cf_sh C) x).

Definition rdb (C : conf) (m : mem) (b : Z) (k : nat) (i : Z) : byte :=
  let p := at_blk C b (PI k) in znth (buf_of m (p_buf p)) (p_off p + i).

Record WF (C : conf) (m0 : mem) (N : Z) : Prop := {
  wf_N : 0 <= N;
  wf_len_in : List.length (cf_ins C) = List.length (sh_ins (cf_sh C));
  wf_len_out : List.length (cf_outs C) = List.length (sh_outs (cf_sh C));
  wf_in : forall k, (k < List.length (sh_ins (cf_sh C)))%nat ->
    p_buf (base C (PI k)) <> BOut /\ 0 <= p_off (base C (PI k)) /\ 0 <= stride (cf_sh C) (PI k) /\
    p_off (base C (PI k)) + N * stride (cf_sh C) (PI k) <= zlen (buf_of m0 (p_buf (base C (PI k))));
  wf_out : forall j, (j < List.length (sh_outs (cf_sh C)))%nat ->
    p_buf (base C (PO j)) = BOut /\ 0 <= p_off (base C (PO j)) /\ 0 < stride (cf_sh C) (PO j) /\
    p_off (base C (PO j)) + N * stride (cf_sh C) (PO j) <= zlen (m_out m0);
  wf_dis : forall j j', (j < List.length (sh_outs (cf_sh C)))%nat ->
    (j' < List.length (sh_outs (cf_sh C)))%nat -> j <> j' ->
    p_off (base C (PO j)) + N * stride (cf_sh C) (PO j) <= p_off (base C (PO j')) \/
    p_off (base C (PO j')) + N * stride (cf_sh C) (PO j') <= p_off (base C (PO j))
}.

(** The first [k] of [N] blocks are done; nothing outside the output sections
    has changed. *)
Record INV (junk : byte) (v : variant) (C : conf) (m0 : mem) (N k : Z) (m : mem) : Prop := {
  inv_in : m_in m = m_in m0;
  inv_aux : m_aux m = m_aux m0;
  inv_len : zlen (m_out m) = zlen (m_out m0);
  inv_done : forall j b t, (j < List.length (sh_outs (cf_sh C)))%nat -> 0 <= b < k ->
    0 <= t < stride (cf_sh C) (PO j) ->
    znth (m_out m) (p_off (at_blk C b (PO j)) + t) =
    seval junk v (rdb C m0 b) (nth (Z.to_nat t) (nth j (sh_outs (cf_sh C)) []) SJunk);
  inv_frame : forall pos, 0 <= pos < zlen (m_out m0) ->
    (forall j, (j < List.length (sh_outs (cf_sh C)))%nat ->
       ~ (p_off (base C (PO j)) <= pos < p_off (base C (PO j)) + N * stride (cf_sh C) (PO j))) ->
    znth (m_out m) pos = znth (m_out m0) pos
}.

(** ** Soundness *)

Lemma buf_of_inv : forall m m0 b, m_in m = m_in m0 -> m_aux m = m_aux m0 -> b <> BOut ->
  buf_of m b = buf_of m0 b.
Proof. intros m m0 [| |] H1 H2 H3; simpl; congruence. Qed.

Lemma look_map : forall A B (f : A -> B) (e : env A) x,
  look (map (fun '(r, l) => (r, f l)) e) x = option_map f (look e x).
Proof.
  intros A B f e x. induction e as [|[r l] e IH]; simpl; [reflexivity|].
  destruct (x =? r)%string; [reflexivity|apply IH].
Qed.

Lemma sb_list_eqb_eq : forall a b, sb_list_eqb a b = true -> a = b.
Proof.
  induction a as [|x a IH]; intros [|y b] H; simpl in H; try discriminate; [reflexivity|].
  apply andb_true_iff in H. destruct H as [H1 H2]. apply sb_eqb_eq in H1. f_equal; auto.
Qed.

Section Run.
Variables (junk : byte) (v : variant) (C : conf) (m0 : mem) (N : Z).
Let sh := cf_sh C.
Hypothesis wf : WF C m0 N.
Variables (kk u : Z) (ms : mem).
Hypothesis Hkk : 0 <= kk.
Hypothesis Hu : 0 <= u.
Hypothesis HkuN : kk + u <= N.
Hypothesis Hms : zlen (m_out ms) = zlen (m_out m0).
Let ev := seval junk v (rdb C m0 kk).

(** What the log says about absolute position [pos]. *)
Fixpoint glook (log : list (nat * Z * Z * list sb)) (pos : Z) : option sb :=
  match log with
  | [] => None
  | (j, o, n, l) :: log' =>
      let s := p_off (at_blk C kk (PO j)) + o in
      if (s <=? pos) && (pos <? s + n) then nth_error l (Z.to_nat (pos - s)) else glook log' pos
  end.

Record REL (y : sst) (s : st) : Prop := {
  rel_v : forall r l, look (sv y) r = Some l -> look (vr s) r = Some (map ev l);
  rel_p : forall p x d, look (sp y) p = Some (x, d) -> look (pr s) p = Some (padd (at_blk C kk x) d);
  rel_in : m_in (mm s) = m_in m0;
  rel_aux : m_aux (mm s) = m_aux m0;
  rel_len : zlen (m_out (mm s)) = zlen (m_out m0);
  rel_log : forall j o n l, In (j, o, n, l) (slog y) ->
    (j < List.length (sh_outs sh))%nat /\ 0 <= o /\ n = zlen l;
  rel_out : forall pos, 0 <= pos < zlen (m_out m0) ->
    znth (m_out (mm s)) pos =
    match glook (slog y) pos with Some b => ev b | None => znth (m_out ms) pos end
}.

Definition roomr (y : sst) : Prop := forall k e, In (k, e) (srd y) ->
  p_off (at_blk C kk (PI k)) + e <= zlen (buf_of m0 (p_buf (base C (PI k)))).
Definition roomw (y : sst) : Prop := forall j o n l, In (j, o, n, l) (slog y) ->
  kk * stride sh (PO j) + o + n <= N * stride sh (PO j).

Lemma sexec1_mono : forall i y y', sexec1 sh u i y = Some y' ->
  (forall x, In x (srd y) -> In x (srd y')) /\ (forall x, In x (slog y) -> In x (slog y')).
Proof.
  intros i y y' H. destruct i; simpl in H.
  - destruct (look (sp y) p) as [[[k|j] dl]|]; try discriminate.
    destruct (_ && _); [|discriminate]. injection H as <-. simpl. auto.
  - destruct (look (sp y) p) as [[[k|j] dl]|]; try discriminate;
      destruct (look (sv y) s) as [l|]; try discriminate.
    destruct (_ && _); [|discriminate]. injection H as <-. simpl. auto.
  - destruct (mapM _ args); [|discriminate]. destruct (apply_op _ _ _); [|discriminate].
    injection H as <-. simpl. auto.
  - destruct (look (sp y) p) as [[x dl]|]; [|discriminate].
    destruct (_ && _); [|discriminate]. injection H as <-. simpl. auto.
  - destruct (look (sp y) p) as [[x dl]|]; [|discriminate].
    injection H as <-. simpl. auto.
Qed.

Lemma sexec_mono : forall l y y', sexec sh u l y = Some y' ->
  (forall x, In x (srd y) -> In x (srd y')) /\ (forall x, In x (slog y) -> In x (slog y')).
Proof.
  induction l as [|i l IH]; intros y y' H; simpl in H.
  - injection H as <-. auto.
  - destruct (sexec1 sh u i y) as [y1|] eqn:E; [|discriminate].
    apply sexec1_mono in E. destruct E as [E1 E2]. apply IH in H. destruct H as [H1 H2].
    split; auto.
Qed.

Lemma map_zseq_slice : forall l off n, 0 <= off -> 0 <= n -> off + n <= zlen l ->
  map (znth l) (zseq off (Z.to_nat n)) = slice l off n.
Proof.
  intros l off n H1 H2 H3. apply znth_ext.
  - rewrite zlen_map, zlen_slice by lia. unfold zlen. rewrite zseq_length. lia.
  - intros i Hi. rewrite zlen_map in Hi. unfold zlen in Hi. rewrite zseq_length in Hi.
    rewrite znth_map with (d := 0) by (unfold zlen; rewrite zseq_length; lia).
    rewrite nth_zseq by lia. rewrite znth_slice by lia. f_equal. lia.
Qed.

Lemma zseq_shift : forall n a b, map (fun i => b + i) (zseq a n) = zseq (b + a) n.
Proof.
  induction n as [|n IH]; intros a b; simpl; [reflexivity|]. f_equal. rewrite IH. f_equal. lia.
Qed.

Lemma exec1_sound : forall i y y' s,
  (forall j d v1 v2 v3 r a, i = IOp r (OYcc j d v1 v2 v3) a -> v <> VNone) ->
  sexec1 sh u i y = Some y' -> roomr y' -> roomw y' -> REL y s ->
  exists s', exec1 junk (vnum v) i s = Ok s' /\ REL y' s'.
Proof.
  intros i y y' s HV H HR HW R.
  destruct i as [d p off n|p off n r|d o args|p k|p k]; simpl in H.
  - destruct (look (sp y) p) as [[[k|j] dl]|] eqn:Ep; try discriminate.
    destruct ((0 <=? dl + off) && (0 <=? n) && (k <? List.length (sh_ins sh))%nat) eqn:Ec; [|discriminate].
    injection H as <-.
    assert (Hk : (k < List.length (sh_ins (cf_sh C)))%nat) by (unfold sh in Ec; lia).
    destruct (wf_in _ _ _ wf k Hk) as (W1 & W2 & W3 & W4).
    pose proof (HR k (dl + off + n) (or_introl eq_refl)) as HB.
    pose proof (rel_p _ _ R _ _ _ Ep) as HP.
    set (q := padd (at_blk C kk (PI k)) dl) in *.
    assert (Hq : p_buf (padd q off) = p_buf (base C (PI k))) by reflexivity.
    assert (Hqo : p_off (padd q off) = p_off (at_blk C kk (PI k)) + (dl + off)) by (unfold q; simpl; lia).
    assert (Hbuf : buf_of (mm s) (p_buf (base C (PI k))) = buf_of m0 (p_buf (base C (PI k)))).
    { apply buf_of_inv; [apply (rel_in _ _ R)|apply (rel_aux _ _ R)|exact W1]. }
    assert (Hpos : 0 <= p_off (at_blk C kk (PI k))).
    { unfold at_blk. cbn [padd p_off]. nia. }
    eexists. split.
    + unfold exec1. rewrite HP. cbn [oget bind]. unfold mload. rewrite Hq, Hbuf, Hqo.
      replace ((0 <=? _) && _) with true by lia. cbn [bind]. reflexivity.
    + constructor; cbn [sv sp slog srd vr pr mm]; try apply R.
      intros r l Hl. cbn [look] in *. destruct (r =? d)%string.
      * injection Hl as <-. f_equal. rewrite map_map.
        rewrite <- map_zseq_slice by lia. rewrite <- zseq_shift. rewrite map_map.
        apply map_ext. intros i. unfold ev. cbn [seval]. unfold rdb.
        cbn [at_blk padd p_buf p_off]. reflexivity.
      * apply (rel_v _ _ R). exact Hl.
  - destruct (look (sp y) p) as [[[k|j] dl]|] eqn:Ep; try discriminate;
      destruct (look (sv y) r) as [l|] eqn:El; try discriminate.
    destruct ((0 <=? dl + off) && (zlen l =? n) && (j <? List.length (sh_outs sh))%nat) eqn:Ec; [|discriminate].
    injection H as <-.
    assert (Hj : (j < List.length (sh_outs (cf_sh C)))%nat) by (unfold sh in Ec; lia).
    destruct (wf_out _ _ _ wf j Hj) as (W1 & W2 & W3 & W4).
    pose proof (HW j (dl + off) n l (or_introl eq_refl)) as HB. unfold sh in HB.
    pose proof (rel_p _ _ R _ _ _ Ep) as HP.
    pose proof (rel_v _ _ R _ _ El) as HL.
    set (q := padd (at_blk C kk (PO j)) dl) in *.
    assert (Hq : p_buf q = BOut) by (exact W1).
    assert (Hqo : p_off q = p_off (at_blk C kk (PO j)) + dl) by reflexivity.
    assert (Hab : p_off (at_blk C kk (PO j)) = p_off (base C (PO j)) + kk * stride (cf_sh C) (PO j)) by reflexivity.
    assert (Hpos : 0 <= p_off (at_blk C kk (PO j))) by nia.
    pose proof (rel_len _ _ R) as HLn.
    eexists. split.
    + unfold exec1. rewrite HP, HL. cbn [oget bind]. rewrite zlen_map.
      replace (zlen l =? n) with true by lia.
      unfold mstore. cbn [padd p_buf p_off]. rewrite Hq, zlen_map, HLn.
      replace ((0 <=? _) && _) with true by lia. cbn [bind]. reflexivity.
    + constructor; cbn [sv sp slog srd vr pr mm m_in m_aux m_out]; try apply R.
      * rewrite zlen_splice; [apply HLn|lia|rewrite zlen_map; lia].
      * intros j' o' n' l' [Hin|Hin].
        -- injection Hin as <- <- <- <-. unfold sh. lia.
        -- apply (rel_log _ _ R). exact Hin.
      * intros pos Hp. rewrite znth_splice by (rewrite ?zlen_map; lia).
        rewrite zlen_map. cbn [glook].
        replace (p_off (at_blk C kk (PO j)) + (dl + off)) with (p_off q + off) by lia.
        replace n with (zlen l) by lia.
        destruct ((p_off q + off <=? pos) && (pos <? p_off q + off + zlen l)) eqn:E.
        -- destruct (nth_error l (Z.to_nat (pos - (p_off q + off)))) as [b|] eqn:En.
           ++ unfold znth. apply nth_error_nth. rewrite nth_error_map, En. reflexivity.
           ++ apply nth_error_None in En. unfold zlen in E. lia.
        -- apply (rel_out _ _ R). exact Hp.
  - destruct (mapM (look (sv y)) args) as [a|] eqn:Ea; [|discriminate].
    destruct (apply_op sdom o a) as [l|] eqn:Eo; [|discriminate]. injection H as <-.
    assert (Ha : mapM (look (vr s)) args = Some (map (map ev) a)).
    { eapply mapM_map; [|exact Ea]. intros x b _. apply (rel_v _ _ R). }
    assert (Hr : apply_op (cdom junk (vnum v)) o (map (map ev) a) = Some (map ev l)).
    { apply apply_op_ok; [|exact Eo]. destruct o; auto. eapply HV. reflexivity. }
    eexists. split.
    + simpl. rewrite Ha. simpl. rewrite Hr. simpl. reflexivity.
    + constructor; cbn [sv sp slog srd vr pr mm]; try apply R.
      intros r l' Hl. simpl in Hl. simpl. destruct (r =? d)%string.
      * injection Hl as <-. reflexivity.
      * apply (rel_v _ _ R). exact Hl.
  - destruct (look (sp y) p) as [[x dl]|] eqn:Ep; [|discriminate].
    destruct ((0 <=? dl + k) && (dl + k <=? u * stride sh x) && pid_ok sh x) eqn:Ec; [|discriminate].
    injection H as <-.
    pose proof (rel_p _ _ R _ _ _ Ep) as HP.
    assert (Hb : 0 <= p_off (padd (at_blk C kk x) dl) + k <=
                 zlen (buf_of (mm s) (p_buf (base C x)))).
    { cbn [padd p_off at_blk]. unfold sh in Ec.
      destruct x as [j|j]; cbn [pid_ok] in Ec.
      - assert (Hk : (j < List.length (sh_ins (cf_sh C)))%nat) by lia.
        destruct (wf_in _ _ _ wf j Hk) as (W1 & W2 & W3 & W4).
        rewrite (buf_of_inv (mm s) m0) by first [apply (rel_in _ _ R)|apply (rel_aux _ _ R)|exact W1].
        nia.
      - assert (Hk : (j < List.length (sh_outs (cf_sh C)))%nat) by lia.
        destruct (wf_out _ _ _ wf j Hk) as (W1 & W2 & W3 & W4).
        rewrite W1. cbn [buf_of]. rewrite (rel_len _ _ R). nia. }
    eexists. split.
    + simpl. rewrite HP. simpl. unfold ptr_add.
      change (p_buf (padd (at_blk C kk x) dl)) with (p_buf (base C x)).
      replace ((0 <=? _) && _) with true by lia. simpl. reflexivity.
    + constructor; cbn [sv sp slog srd vr pr mm]; try apply R.
      intros p' x' d' Hl. simpl in Hl. simpl. destruct (p' =? p)%string.
      * injection Hl as <- <-. f_equal. unfold padd. simpl. f_equal. lia.
      * apply (rel_p _ _ R). exact Hl.
  - destruct (look (sp y) p) as [[x dl]|] eqn:Ep; [|discriminate].
    injection H as <-.
    pose proof (rel_p _ _ R _ _ _ Ep) as HP.
    eexists. split.
    + simpl. rewrite HP. simpl. reflexivity.
    + constructor; cbn [sv sp slog srd vr pr mm]; try apply R.
      intros p' x' d' Hl. simpl in Hl. simpl. destruct (p' =? p)%string.
      * injection Hl as <- <-. f_equal. unfold padd. simpl. f_equal. lia.
      * apply (rel_p _ _ R). exact Hl.
Qed.

Definition uses_ycc (i : instr) : bool :=
  match i with IOp _ (OYcc _ _ _ _ _) _ => true | _ => false end.

Lemma exec_sound : forall l y y' s,
  (existsb uses_ycc l = true -> v <> VNone) ->
  sexec sh u l y = Some y' -> roomr y' -> roomw y' -> REL y s ->
  exists s', exec junk (vnum v) l s = Ok s' /\ REL y' s'.
Proof.
  induction l as [|i l IH]; intros y y' s HV H HR HW R; simpl in H.
  - injection H as <-. exists s. split; [reflexivity|exact R].
  - destruct (sexec1 sh u i y) as [y1|] eqn:E; [|discriminate].
    destruct (sexec_mono _ _ _ H) as [M1 M2].
    destruct (exec1_sound i y y1 s) as (s1 & X1 & R1).
    + intros j d v1 v2 v3 r a ->. apply HV. reflexivity.
    + exact E.
    + intros k e Hin. apply HR. apply M1. exact Hin.
    + intros j o n l' Hin. apply (HW _ _ _ l'). apply M2. exact Hin.
    + exact R.
    + destruct (IH y1 y' s1) as (s2 & X2 & R2); auto.
      { intros Hx. apply HV. simpl. rewrite Hx. apply orb_true_r. }
      exists s2. split; [|exact R2]. simpl. rewrite X1. simpl. exact X2.
Qed.
End Run.

(** ** One iteration *)

Lemma sexec_idx : forall sh u l y y',
  (forall k e, In (k, e) (srd y) -> (k < List.length (sh_ins sh))%nat) ->
  (forall j o n t, In (j, o, n, t) (slog y) -> (j < List.length (sh_outs sh))%nat) ->
  sexec sh u l y = Some y' ->
  (forall k e, In (k, e) (srd y') -> (k < List.length (sh_ins sh))%nat) /\
  (forall j o n t, In (j, o, n, t) (slog y') -> (j < List.length (sh_outs sh))%nat).
Proof.
  intros sh u l. induction l as [|i l IH]; intros y y' H1 H2 H; simpl in H.
  - injection H as <-. split; assumption.
  - destruct (sexec1 sh u i y) as [y1|] eqn:E; [|discriminate].
    eapply IH; [| |exact H]; clear IH H.
    + intros k e Hin. destruct i; simpl in E.
      * destruct (look (sp y) p) as [[[k'|j] dl]|]; try discriminate.
        destruct (_ && _) eqn:Ec; [|discriminate]. injection E as <-. simpl in Hin.
        destruct Hin as [Hin|Hin]; [injection Hin as <- <-; lia|eapply H1; exact Hin].
      * destruct (look (sp y) p) as [[[k'|j] dl]|]; try discriminate;
          destruct (look (sv y) s) as [l'|]; try discriminate.
        destruct (_ && _); [|discriminate]. injection E as <-. eapply H1; exact Hin.
      * destruct (mapM _ args); [|discriminate]. destruct (apply_op _ _ _); [|discriminate].
        injection E as <-. eapply H1; exact Hin.
      * destruct (look (sp y) p) as [[x dl]|]; [|discriminate].
        destruct (_ && _); [|discriminate]. injection E as <-. eapply H1; exact Hin.
      * destruct (look (sp y) p) as [[x dl]|]; [|discriminate].
        injection E as <-. eapply H1; exact Hin.
    + intros j o n t Hin. destruct i; simpl in E.
      * destruct (look (sp y) p) as [[[k'|j'] dl]|]; try discriminate.
        destruct (_ && _) eqn:Ec; [|discriminate]. injection E as <-. eapply H2; exact Hin.
      * destruct (look (sp y) p) as [[[k'|j'] dl]|]; try discriminate;
          destruct (look (sv y) s) as [l'|]; try discriminate.
        destruct (_ && _) eqn:Ec; [|discriminate]. injection E as <-. simpl in Hin.
        destruct Hin as [Hin|Hin]; [injection Hin as <- <- <- <-; lia|eapply H2; exact Hin].
      * destruct (mapM _ args); [|discriminate]. destruct (apply_op _ _ _); [|discriminate].
        injection E as <-. eapply H2; exact Hin.
      * destruct (look (sp y) p) as [[x dl]|]; [|discriminate].
        destruct (_ && _); [|discriminate]. injection E as <-. eapply H2; exact Hin.
      * destruct (look (sp y) p) as [[x dl]|]; [|discriminate].
        injection E as <-. eapply H2; exact Hin.
Qed.

Lemma rext_max : forall y k e, In (k, e) (srd y) -> e <= rext y k.
Proof.
  intros y k e. unfold rext. induction (srd y) as [|[k' e'] l IH]; simpl; [tauto|].
  intros [H|H].
  - injection H as -> ->. rewrite Nat.eqb_refl. lia.
  - specialize (IH H). destruct (Nat.eqb k k'); lia.
Qed.
Lemma wext_max : forall y j o n t, In (j, o, n, t) (slog y) -> o + n <= wext y j.
Proof.
  intros y j o n t. unfold wext. induction (slog y) as [|[[[j' o'] n'] t'] l IH]; simpl; [tauto|].
  intros [H|H].
  - injection H as -> -> -> ->. rewrite Nat.eqb_refl. lia.
  - specialize (IH H). destruct (Nat.eqb j j'); lia.
Qed.

Lemma seval_shift : forall junk v C m kk b s,
  seval junk v (rdb C m kk) (shift (cf_sh C) b s) = seval junk v (rdb C m (kk + b)) s.
Proof.
  intros junk v C m kk b s. induction s as [k i|c| |d p lo IHlo hi IHhi]; cbn [shift seval].
  - unfold rdb. cbn [at_blk padd p_buf p_off stride]. f_equal. lia.
  - reflexivity.
  - reflexivity.
  - rewrite IHlo, IHhi. reflexivity.
Qed.

Definition room (C : conf) (m0 : mem) (N kk : Z) (re we : list Z) : Prop :=
  (forall k, (k < List.length (sh_ins (cf_sh C)))%nat ->
     p_off (at_blk C kk (PI k)) + nth k re 0 <= zlen (buf_of m0 (p_buf (base C (PI k))))) /\
  (forall j, (j < List.length (sh_outs (cf_sh C)))%nat ->
     kk * stride (cf_sh C) (PO j) + nth j we 0 <= N * stride (cf_sh C) (PO j)).

Definition READY (C : conf) (names : env pid) (cs : env (list byte)) (k : Z) (s : st) : Prop :=
  (forall p x, look names p = Some x -> look (pr s) p = Some (at_blk C k x)) /\
  (forall r l, look cs r = Some l -> look (vr s) r = Some l).

Lemma look_In : forall A (e : env A) x a, look e x = Some a -> In (x, a) e.
Proof.
  intros A e x a. induction e as [|[y b] e IH]; simpl; [discriminate|].
  destruct (x =? y)%string eqn:E.
  - intros H. injection H as <-. apply String.eqb_eq in E. subst. left. reflexivity.
  - intros H. right. apply IH. exact H.
Qed.

Lemma nth_map_seq : forall (f : nat -> Z) n k, (k < n)%nat -> nth k (map f (seq 0 n)) 0 = f k.
Proof.
  intros f n k H. rewrite nth_indep with (d' := f 0%nat) by (rewrite map_length, seq_length; lia).
  rewrite map_nth. rewrite seq_nth by lia. reflexivity.
Qed.

Lemma forallz_from_spec : forall n i f, forallz_from n i f = true ->
  forall x, i <= x < i + Z.of_nat n -> f x = true.
Proof.
  induction n as [|n IH]; intros i f H x Hx; [lia|]. simpl in H.
  apply andb_true_iff in H. destruct H as [H1 H2].
  destruct (Z.eq_dec x i) as [->|Hne]; [assumption|]. apply (IH (i + 1)); [assumption|lia].
Qed.

Lemma out_ok1_spec : forall sh log j t b, out_ok1 sh log j t b = true ->
  forall i, 0 <= i < zlen t ->
  slook log j (b * zlen t + i) = Some (shift sh b (nth (Z.to_nat i) t SJunk)).
Proof.
  intros sh log j t b H. unfold out_ok1 in H. revert H.
  generalize (b * zlen t) as o. induction t as [|s t IH]; intros o H i Hi.
  - rewrite zlen_nil in Hi. lia.
  - rewrite zlen_cons in Hi. destruct (slook log j o) as [s'|] eqn:E; [|discriminate].
    apply andb_true_iff in H. destruct H as [H1 H2]. apply sb_eqb_eq in H1.
    destruct (Z.eq_dec i 0) as [->|Hne].
    + rewrite Z.add_0_r, E. simpl. congruence.
    + specialize (IH (o + 1) H2 (i - 1) ltac:(lia)).
      replace (o + 1 + (i - 1)) with (o + i) in IH by lia. rewrite IH.
      replace (Z.to_nat i) with (S (Z.to_nat (i - 1))) by lia. reflexivity.
Qed.

(** Inside section [j], the log as a whole says what its entries for [j] say. *)
Lemma glook_slook : forall C m0 N kk s log, WF C m0 N -> 0 <= kk ->
  (forall j o n l, In (j, o, n, l) log ->
     (j < List.length (sh_outs (cf_sh C)))%nat /\ 0 <= o /\
     kk * stride (cf_sh C) (PO j) + o + n <= N * stride (cf_sh C) (PO j)) ->
  forall j i, (j < List.length (sh_outs (cf_sh C)))%nat -> 0 <= i ->
  kk * stride (cf_sh C) (PO j) + i < N * stride (cf_sh C) (PO j) ->
  slook log j i = Some s ->
  glook C kk log (p_off (at_blk C kk (PO j)) + i) = Some s.
Proof.
  intros C m0 N kk s log W Hkk HL j i Hj Hi HiN H.
  induction log as [|[[[j' o] n] l] log IH]; cbn [slook glook] in *; [discriminate|].
  destruct (HL j' o n l (or_introl eq_refl)) as (J1 & J2 & J3).
  assert (IH' : slook log j i = Some s -> glook C kk log (p_off (at_blk C kk (PO j)) + i) = Some s).
  { apply IH. intros. apply (HL _ _ _ l0). right. assumption. }
  destruct (Nat.eqb j j') eqn:Ej.
  - apply Nat.eqb_eq in Ej. subst j'. cbn [andb] in H.
    destruct ((o <=? i) && (i <? o + n)) eqn:Ec.
    + replace ((p_off (at_blk C kk (PO j)) + o <=? p_off (at_blk C kk (PO j)) + i) && _) with true by lia.
      replace (p_off (at_blk C kk (PO j)) + i - (p_off (at_blk C kk (PO j)) + o)) with (i - o) by lia.
      exact H.
    + replace ((p_off (at_blk C kk (PO j)) + o <=? p_off (at_blk C kk (PO j)) + i) && _) with false by lia.
      apply IH'. exact H.
  - cbn [andb] in H. apply Nat.eqb_neq in Ej.
    pose proof (wf_dis _ _ _ W j j' Hj J1 Ej) as D.
    destruct (wf_out _ _ _ W j Hj) as (W1 & W2 & W3 & W4).
    destruct (wf_out _ _ _ W j' J1) as (V1 & V2 & V3 & V4).
    unfold at_blk in *. cbn [padd p_off] in *.
    match goal with |- (if ?c then _ else _) = _ => replace c with false by nia end.
    apply IH'. exact H.
Qed.

Lemma glook_none : forall C m0 N kk log, WF C m0 N -> 0 <= kk ->
  (forall j o n l, In (j, o, n, l) log ->
     (j < List.length (sh_outs (cf_sh C)))%nat /\ 0 <= o /\
     kk * stride (cf_sh C) (PO j) + o + n <= N * stride (cf_sh C) (PO j)) ->
  forall pos,
  (forall j, (j < List.length (sh_outs (cf_sh C)))%nat ->
     ~ (p_off (at_blk C kk (PO j)) <= pos < p_off (base C (PO j)) + N * stride (cf_sh C) (PO j))) ->
  glook C kk log pos = None.
Proof.
  intros C m0 N kk log W Hkk HL pos HP.
  induction log as [|[[[j' o] n] l] log IH]; cbn [glook]; [reflexivity|].
  destruct (HL j' o n l (or_introl eq_refl)) as (J1 & J2 & J3).
  specialize (HP j' J1) as HP'.
  match goal with |- (if ?c then _ else _) = _ => replace c with false end.
  - apply IH. intros. apply (HL _ _ _ l0). right. assumption.
  - unfold at_blk in *. cbn [padd p_off] in *. lia.
Qed.

Lemma blk_arith : forall kk b N u t w, kk <= b -> b < kk + u -> kk + u <= N -> 0 <= t < w ->
  0 <= (b - kk) * w + t /\ kk * w + ((b - kk) * w + t) < N * w.
Proof.
  intros. split; [nia|]. replace (kk * w + ((b - kk) * w + t)) with (b * w + t) by lia. nia.
Qed.

Lemma iter_sound : forall junk v C m0 N sh u cs names body re we,
  cf_sh C = sh ->
  WF C m0 N ->
  (existsb uses_ycc body = true -> v <> VNone) ->
  check sh u cs names body = Some (re, we) ->
  forall kk s, 0 <= kk -> 0 <= u -> kk + u <= N ->
  room C m0 N kk re we ->
  READY C names cs kk s -> INV junk v C m0 N kk (mm s) ->
  exists s', exec junk (vnum v) body s = Ok s' /\
    READY C names cs (kk + u) s' /\ INV junk v C m0 N (kk + u) (mm s').
Proof.
  intros junk v C m0 N sh u cs names body re we Hsh W HV HC kk s Hkk Hu HN [HR HWr] [RP RC] I.
  subst sh. unfold check in HC.
  destruct (sexec (cf_sh C) u body (sinit cs names)) as [y|] eqn:Ey; [|discriminate].
  destruct (check_end (cf_sh C) u cs names y) eqn:Ee; [|discriminate].
  injection HC as <- <-.
  assert (HI := sexec_idx (cf_sh C) u body (sinit cs names) y).
  destruct HI as [HI1 HI2]; [simpl; tauto|simpl; tauto|exact Ey|].
  assert (R0 : REL junk v C m0 kk (mm s) (sinit cs names) s).
  { constructor; cbn [sinit sv sp slog srd].
    - intros r l H. rewrite look_map in H. destruct (look cs r) as [l'|] eqn:E; [|discriminate].
      injection H as <-. rewrite (RC _ _ E). f_equal. rewrite map_map. symmetry.
      rewrite <- (map_id l') at 2. apply map_ext. reflexivity.
    - intros p x d H. rewrite (look_map _ _ (fun x => (x, 0))) in H.
      destruct (look names p) as [x'|] eqn:E; [|discriminate].
      injection H as <- <-. rewrite (RP _ _ E). f_equal. unfold padd. destruct (at_blk C kk x').
      simpl. f_equal. lia.
    - apply (inv_in _ _ _ _ _ _ _ I).
    - apply (inv_aux _ _ _ _ _ _ _ I).
    - apply (inv_len _ _ _ _ _ _ _ I).
    - simpl. tauto.
    - intros pos Hp. reflexivity. }
  assert (HRr : roomr C m0 kk y).
  { intros k e Hin. pose proof (HI1 _ _ Hin) as Hk. specialize (HR k Hk).
    rewrite nth_map_seq in HR by exact Hk. pose proof (rext_max _ _ _ Hin). lia. }
  assert (HWw : roomw C N kk y).
  { intros j o n l Hin. pose proof (HI2 _ _ _ _ Hin) as Hj. specialize (HWr j Hj).
    rewrite nth_map_seq in HWr by exact Hj. pose proof (wext_max _ _ _ _ _ Hin). lia. }
  destruct (exec_sound junk v C m0 N W kk u (mm s) Hkk HN body (sinit cs names) y s HV Ey HRr HWw R0)
    as (s' & X & R).
  exists s'. split; [exact X|].
  unfold check_end in Ee. apply andb_true_iff in Ee. destruct Ee as [Ee E3].
  apply andb_true_iff in Ee. destruct Ee as [E1 E2].
  rewrite forallb_forall in E1, E2, E3.
  assert (HLog : forall j o n l, In (j, o, n, l) (slog y) ->
     (j < List.length (sh_outs (cf_sh C)))%nat /\ 0 <= o /\
     kk * stride (cf_sh C) (PO j) + o + n <= N * stride (cf_sh C) (PO j)).
  { intros j o n l Hin. destruct (rel_log _ _ _ _ _ _ _ _ R _ _ _ _ Hin) as (A & B & D).
    split; [exact A|]. split; [exact B|]. exact (HWw _ _ _ _ Hin). }
  split; [split|].
  - intros p x Hl. specialize (E1 (p, x) (look_In _ _ _ _ Hl)). cbn beta iota in E1.
    destruct (look (sp y) p) as [[x' d]|] eqn:Es; [|discriminate].
    rewrite (rel_p _ _ _ _ _ _ _ _ R _ _ _ Es). f_equal.
    assert (x' = x /\ d = u * stride (cf_sh C) x) as [-> ->].
    { destruct x' as [k|k], x as [k'|k']; cbn [andb] in E1; try discriminate;
        apply andb_true_iff in E1; destruct E1 as [E1 _];
        apply andb_true_iff in E1; destruct E1 as [Ea Eb];
        apply Nat.eqb_eq in Ea; apply Z.eqb_eq in Eb; subst; auto. }
    unfold at_blk, padd. cbn [p_buf p_off]. f_equal. lia.
  - intros r l Hl. specialize (E2 (r, l) (look_In _ _ _ _ Hl)). cbn beta iota in E2.
    destruct (look (sv y) r) as [l'|] eqn:Es; [|discriminate].
    rewrite (rel_v _ _ _ _ _ _ _ _ R _ _ Es). apply sb_list_eqb_eq in E2. subst l'.
    rewrite map_map. f_equal. rewrite <- (map_id l) at 2. apply map_ext. reflexivity.
  - constructor.
    + apply (rel_in _ _ _ _ _ _ _ _ R).
    + apply (rel_aux _ _ _ _ _ _ _ _ R).
    + apply (rel_len _ _ _ _ _ _ _ _ R).
    + intros j b t Hj Hb Ht.
      destruct (wf_out _ _ _ W j Hj) as (W1 & W2 & W3 & W4).
      assert (Hpos : 0 <= p_off (at_blk C b (PO j)) + t < zlen (m_out m0)).
      { unfold at_blk. cbn [padd p_off]. nia. }
      rewrite (rel_out _ _ _ _ _ _ _ _ R) by exact Hpos.
      destruct (Z_lt_ge_dec b kk) as [Hlt|Hge].
      * rewrite (glook_none C m0 N kk (slog y) W Hkk HLog).
        -- apply (inv_done _ _ _ _ _ _ _ I); auto; lia.
        -- intros j' Hj'. destruct (Nat.eq_dec j j') as [->|Hne].
           ++ unfold at_blk. cbn [padd p_off]. nia.
           ++ pose proof (wf_dis _ _ _ W j j' Hj Hj' Hne) as D.
              destruct (wf_out _ _ _ W j' Hj') as (V1 & V2 & V3 & V4).
              unfold at_blk. cbn [padd p_off]. nia.
      * set (tm := nth j (sh_outs (cf_sh C)) []).
        assert (Hin : In (j, tm) (combine (seq 0 (List.length (sh_outs (cf_sh C)))) (sh_outs (cf_sh C)))).
        { assert (Hn : nth j (combine (seq 0 (List.length (sh_outs (cf_sh C)))) (sh_outs (cf_sh C))) (0%nat, []) = (j, tm)).
          { rewrite combine_nth by apply seq_length. rewrite seq_nth by exact Hj. reflexivity. }
          rewrite <- Hn. apply nth_In. rewrite combine_length, seq_length. lia. }
        specialize (E3 _ Hin). cbn beta iota in E3.
        pose proof (forallz_from_spec _ _ _ E3 (b - kk) ltac:(lia)) as E4.
        assert (Ht' : 0 <= t < zlen tm) by exact Ht.
        pose proof (out_ok1_spec _ _ _ _ _ E4 t Ht') as E5.
        change (zlen tm) with (stride (cf_sh C) (PO j)) in E5.
        destruct (blk_arith kk b N u t (stride (cf_sh C) (PO j)) ltac:(lia) ltac:(lia) ltac:(lia) ltac:(lia))
          as [G1 G2].
        pose proof (glook_slook C m0 N kk _ _ W Hkk HLog j _ Hj G1 G2 E5) as E6.
        replace (p_off (at_blk C b (PO j)) + t)
          with (p_off (at_blk C kk (PO j)) + ((b - kk) * stride (cf_sh C) (PO j) + t))
          by (unfold at_blk; cbn [padd p_off]; lia).
        rewrite E6, seval_shift. f_equal. f_equal. lia.
    + intros pos Hp HF. rewrite (rel_out _ _ _ _ _ _ _ _ R) by exact Hp.
      rewrite (glook_none C m0 N kk (slog y) W Hkk HLog).
      * apply (inv_frame _ _ _ _ _ _ _ I); assumption.
      * intros j Hj. specialize (HF j Hj). destruct (wf_out _ _ _ W j Hj) as (W1 & W2 & W3 & W4).
        unfold at_blk. cbn [padd p_off]. nia.
Qed.

(** ** Loops *)

Lemma room_mono : forall C m0 N kk kk' re we, WF C m0 N -> kk <= kk' ->
  room C m0 N kk' re we -> room C m0 N kk re we.
Proof.
  intros C m0 N kk kk' re we W Hle [H1 H2]. split.
  - intros k Hk. specialize (H1 k Hk). destruct (wf_in _ _ _ W k Hk) as (_ & _ & S & _).
    unfold at_blk in *. cbn [padd p_off] in *. nia.
  - intros j Hj. specialize (H2 j Hj). destruct (wf_out _ _ _ W j Hj) as (_ & _ & S & _). nia.
Qed.

Lemma look_pid_base : forall C k x, p_buf (at_blk C k x) = p_buf (base C x).
Proof. reflexivity. Qed.

Lemma ptr_lt_at : forall C names cs k s x px e, READY C names cs k s -> look names x = Some px ->
  p_buf e = p_buf (base C px) -> ptr_lt s x e = Ok (p_off (at_blk C k px) <? p_off e).
Proof.
  intros C names cs k s x px e [RP _] Hx He. unfold ptr_lt. rewrite (RP _ _ Hx). cbn [oget bind].
  rewrite look_pid_base, He. destruct (p_buf (base C px)); reflexivity.
Qed.

Section Loops.
Variables (junk : byte) (v : variant) (C : conf) (m0 : mem) (N : Z).
Variables (u : Z) (cs : env (list byte)) (names : env pid) (body : list instr) (re we : list Z).
Hypothesis W : WF C m0 N.
Hypothesis HV : existsb uses_ycc body = true -> v <> VNone.
Hypothesis HC : check (cf_sh C) u cs names body = Some (re, we).
Hypothesis Hu : 0 < u.
Variables (x : string) (px : pid) (e : ptr).
Hypothesis Hx : look names x = Some px.
Hypothesis He : p_buf e = p_buf (base C px).

Lemma while_go_sound : forall n fuel kk s, (n <= fuel)%nat -> 0 <= kk ->
  kk + u * Z.of_nat n <= N ->
  ((0 < n)%nat -> room C m0 N (kk + u * (Z.of_nat n - 1)) re we) ->
  p_off e <= p_off (at_blk C (kk + u * Z.of_nat n) px) ->
  ((0 < n)%nat -> p_off (at_blk C (kk + u * (Z.of_nat n - 1)) px) < p_off e) ->
  0 <= stride (cf_sh C) px ->
  READY C names cs kk s -> INV junk v C m0 N kk (mm s) ->
  exists s', while_go fuel junk (vnum v) body x e s = Ok s' /\
    READY C names cs (kk + u * Z.of_nat n) s' /\ INV junk v C m0 N (kk + u * Z.of_nat n) (mm s').
Proof.
  induction n as [|n IH]; intros fuel kk s Hf Hkk HN HR He1 He2 Hst RD I.
  - replace (kk + u * Z.of_nat 0) with kk in * by lia.
    exists s. split; [|split; assumption].
    destruct fuel; cbn [while_go]; rewrite (ptr_lt_at _ _ _ _ _ _ _ _ RD Hx He); cbn [bind];
      replace (p_off (at_blk C kk px) <? p_off e) with false by lia; reflexivity.
  - destruct fuel as [|fuel]; [lia|].
    assert (Hlt : p_off (at_blk C kk px) < p_off e).
    { specialize (He2 ltac:(lia)). unfold at_blk in *. cbn [padd p_off] in *. nia. }
    cbn [while_go]. rewrite (ptr_lt_at _ _ _ _ _ _ _ _ RD Hx He). cbn [bind].
    replace (p_off (at_blk C kk px) <? p_off e) with true by lia.
    destruct (iter_sound junk v C m0 N (cf_sh C) u cs names body re we eq_refl W HV HC kk s Hkk
                ltac:(lia) ltac:(nia)) as (s1 & X & RD1 & I1).
    + eapply room_mono; [exact W| |apply HR; lia]. nia.
    + exact RD.
    + exact I.
    + rewrite X. cbn [bind].
      destruct (IH fuel (kk + u) s1) as (s2 & X2 & RD2 & I2); try assumption; try lia.
      * intros Hn. replace (kk + u + u * (Z.of_nat n - 1)) with (kk + u * (Z.of_nat (S n) - 1)) by lia.
        apply HR. lia.
      * replace (kk + u + u * Z.of_nat n) with (kk + u * Z.of_nat (S n)) by lia. exact He1.
      * intros Hn. replace (kk + u + u * (Z.of_nat n - 1)) with (kk + u * (Z.of_nat (S n) - 1)) by lia.
        apply He2. lia.
      * exists s2. replace (kk + u * Z.of_nat (S n)) with (kk + u + u * Z.of_nat n) by lia.
        split; [exact X2|]. split; assumption.
Qed.

Lemma asm_go_sound : forall n fuel kk s, (0 < n <= fuel)%nat -> 0 <= kk ->
  kk + u * Z.of_nat n <= N ->
  room C m0 N (kk + u * (Z.of_nat n - 1)) re we ->
  p_off e <= p_off (at_blk C (kk + u * Z.of_nat n) px) ->
  p_off (at_blk C (kk + u * (Z.of_nat n - 1)) px) < p_off e ->
  0 <= stride (cf_sh C) px ->
  READY C names cs kk s -> INV junk v C m0 N kk (mm s) ->
  exists s', asm_go fuel junk (vnum v) body x e s = Ok s' /\
    READY C names cs (kk + u * Z.of_nat n) s' /\ INV junk v C m0 N (kk + u * Z.of_nat n) (mm s').
Proof.
  induction n as [|n IH]; intros fuel kk s Hf Hkk HN HR He1 He2 Hst RD I; [lia|].
  destruct fuel as [|fuel]; [lia|].
  cbn [asm_go].
  destruct (iter_sound junk v C m0 N (cf_sh C) u cs names body re we eq_refl W HV HC kk s Hkk
              ltac:(lia) ltac:(nia)) as (s1 & X & RD1 & I1).
  - eapply room_mono; [exact W| |apply HR; lia]. nia.
  - exact RD.
  - exact I.
  - rewrite X. cbn [bind]. rewrite (ptr_lt_at _ _ _ _ _ _ _ _ RD1 Hx He). cbn [bind].
    destruct n as [|n].
    + replace (kk + u * Z.of_nat 1) with (kk + u) in * by lia.
      replace (p_off (at_blk C (kk + u) px) <? p_off e) with false by lia.
      exists s1. auto.
    + assert (Hlt : p_off (at_blk C (kk + u) px) < p_off e).
      { unfold at_blk in *. cbn [padd p_off] in *. nia. }
      replace (p_off (at_blk C (kk + u) px) <? p_off e) with true by lia.
      destruct (IH fuel (kk + u) s1) as (s2 & X2 & RD2 & I2); try assumption; try lia.
      * replace (kk + u + u * (Z.of_nat (S n) - 1)) with (kk + u * (Z.of_nat (S (S n)) - 1)) by lia.
        apply HR.
      * replace (kk + u + u * Z.of_nat (S n)) with (kk + u * Z.of_nat (S (S n))) by lia. exact He1.
      * replace (kk + u + u * (Z.of_nat (S n) - 1)) with (kk + u * (Z.of_nat (S (S n)) - 1)) by lia.
        exact He2.
      * exists s2. replace (kk + u * Z.of_nat (S (S n))) with (kk + u + u * Z.of_nat (S n)) by lia.
        split; [exact X2|]. split; assumption.
Qed.

Hypothesis Hpx : pid_ok (cf_sh C) px = true.
Hypothesis Hst : 0 < stride (cf_sh C) px.

Lemma enough_fuel : forall kk n s, 0 <= kk -> 0 <= n -> kk + u * n <= N -> INV junk v C m0 N kk (mm s) ->
  (Z.to_nat n <= loop_fuel s e)%nat.
Proof.
  intros kk n s Hkk Hn HN I. unfold loop_fuel. rewrite He.
  assert (H : N * stride (cf_sh C) px <= zlen (buf_of (mm s) (p_buf (base C px)))).
  { destruct px as [k|j]; cbn [pid_ok] in Hpx.
    - destruct (wf_in _ _ _ W k ltac:(lia)) as (W1 & W2 & W3 & W4).
      rewrite (buf_of_inv (mm s) m0) by first [apply (inv_in _ _ _ _ _ _ _ I)|apply (inv_aux _ _ _ _ _ _ _ I)|exact W1].
      lia.
    - destruct (wf_out _ _ _ W j ltac:(lia)) as (W1 & W2 & W3 & W4).
      rewrite W1. cbn [buf_of]. rewrite (inv_len _ _ _ _ _ _ _ I). lia. }
  unfold zlen in H. assert (n <= N * stride (cf_sh C) px) by nia. lia.
Qed.

(** [while x < e] where [e] is [x] moved on by [u * n] blocks. *)
Lemma while_sound : forall kk n s, 0 <= kk -> 0 <= n -> kk + u * n <= N ->
  (0 < n -> room C m0 N (kk + u * (n - 1)) re we) ->
  e = at_blk C (kk + u * n) px ->
  READY C names cs kk s -> INV junk v C m0 N kk (mm s) ->
  exists s', while_lt junk (vnum v) body x e s = Ok s' /\
    READY C names cs (kk + u * n) s' /\ INV junk v C m0 N (kk + u * n) (mm s').
Proof.
  intros kk n s Hkk Hn HN HR Hee RD I.
  pose proof (enough_fuel kk n s Hkk Hn HN I) as Hf.
  destruct (while_go_sound (Z.to_nat n) (loop_fuel s e) kk s) as (s' & X & Y & Z0); auto;
    rewrite ?Z2Nat.id in * by lia; try assumption; try lia.
  - intros. apply HR. lia.
  - rewrite Hee. lia.
  - intros. rewrite Hee. unfold at_blk. cbn [padd p_off]. nia.
  - exists s'. unfold while_lt. auto.
Qed.

Lemma asm_sound : forall kk n s, 0 <= kk -> 0 < n -> kk + u * n <= N ->
  room C m0 N (kk + u * (n - 1)) re we ->
  e = at_blk C (kk + u * n) px ->
  READY C names cs kk s -> INV junk v C m0 N kk (mm s) ->
  exists s', asm_jb junk (vnum v) body x e s = Ok s' /\
    READY C names cs (kk + u * n) s' /\ INV junk v C m0 N (kk + u * n) (mm s').
Proof.
  intros kk n s Hkk Hn HN HR Hee RD I.
  pose proof (enough_fuel kk n s Hkk ltac:(lia) HN I) as Hf.
  destruct (asm_go_sound (Z.to_nat n) (loop_fuel s e) kk s) as (s' & X & Y & Z0); auto;
    rewrite ?Z2Nat.id in * by lia; try assumption; try lia.
  - rewrite Hee. lia.
  - rewrite Hee. unfold at_blk. cbn [padd p_off]. nia.
  - exists s'. unfold asm_jb. auto.
Qed.
End Loops.

(** Bodies that neither read nor write past their own blocks always have room. *)
Lemma room_exact : forall C m0 N kk u re we, WF C m0 N -> 0 <= kk -> kk + u <= N ->
  (forall k, (k < List.length (sh_ins (cf_sh C)))%nat -> nth k re 0 <= u * stride (cf_sh C) (PI k)) ->
  (forall j, (j < List.length (sh_outs (cf_sh C)))%nat -> nth j we 0 <= u * stride (cf_sh C) (PO j)) ->
  room C m0 N kk re we.
Proof.
  intros C m0 N kk u re we W Hkk HN HR HW. split.
  - intros k Hk. specialize (HR k Hk). destruct (wf_in _ _ _ W k Hk) as (_ & _ & S & B).
    unfold at_blk. cbn [padd p_off]. nia.
  - intros j Hj. specialize (HW j Hj). destruct (wf_out _ _ _ W j Hj) as (_ & _ & S & _). nia.
Qed.
