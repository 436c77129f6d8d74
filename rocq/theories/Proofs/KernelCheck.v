(** A checker for kernel loop bodies, and the proof that a body it accepts does
    what its per-block description says, for any number of blocks. *)
From Verif Require Import Base.Bytes Base.Res Model.Color565 Model.Ycc Model.Kernel
  Proofs.LanesFacts.
From Coq Require Import ZifyBool ZifyNat.

(** ** Symbolic bytes *)

(** [SIn k i]: byte [i] after input pointer [k]; [SYcc d part lo hi]: low/high
    byte of a colour put through YCoCg-R. *)
Inductive sb :=
| SIn (k : nat) (i : Z)
| SCst (b : byte)
| SJunk
| SYcc (d : dir) (part : bool) (lo hi : sb).

Definition dir_eqb (a b : dir) : bool :=
  match a, b with Dec, Dec | Rec, Rec => true | _, _ => false end.

Fixpoint sb_eqb (a b : sb) : bool :=
  match a, b with
  | SIn k i, SIn k' i' => Nat.eqb k k' && (i =? i')
  | SCst x, SCst y => Byte.eqb x y
  | SYcc d p l h, SYcc d' p' l' h' =>
      dir_eqb d d' && Bool.eqb p p' && sb_eqb l l' && sb_eqb h h'
  | _, _ => false
  end.

Lemma sb_eqb_eq : forall a b, sb_eqb a b = true -> a = b.
Proof.
  induction a as [k i|x| |d p l IHl h IHh]; intros [k' i'|y| |d' p' l' h'] H; simpl in H; try discriminate.
  - apply andb_true_iff in H. destruct H as [H1 H2].
    apply Nat.eqb_eq in H1. apply Z.eqb_eq in H2. congruence.
  - apply byte_eqb_eq in H. congruence.
  - repeat (apply andb_true_iff in H; destruct H as [H ?]).
    apply IHl in H1. apply IHh in H0. apply Bool.eqb_prop in H2.
    destruct d, d'; simpl in H; try discriminate; congruence.
Qed.

Definition is_cst (c : byte) (a : sb) : bool :=
  match a with SCst x => Byte.eqb x c | _ => false end.

Lemma is_cst_eq : forall c a, is_cst c a = true -> a = SCst c.
Proof. intros c [| | |] H; simpl in H; try discriminate. apply byte_eqb_eq in H. congruence. Qed.

Definition sor (a b : sb) : option sb :=
  match a, b with
  | SCst x, SCst y => Some (SCst (byte_or x y))
  | _, _ => if is_cst x00 a then Some b else if is_cst x00 b then Some a else None
  end.
Definition sand (a b : sb) : option sb :=
  match a, b with
  | SCst x, SCst y => Some (SCst (byte_and x y))
  | _, _ => if is_cst x00 a || is_cst x00 b then Some (SCst x00)
            else if is_cst xff a then Some b else if is_cst xff b then Some a else None
  end.

Definition std_variants (v1 v2 v3 : variant) : bool :=
  match v1, v2, v3 with V1, V2, V3 => true | _, _, _ => false end.

Definition sdom : dom sb := {|
  d_const := SCst;
  d_junk := SJunk;
  d_as_const := fun s => match s with SCst b => Some b | _ => None end;
  d_or := sor;
  d_and := sand;
  d_ycc := fun _ d v1 v2 v3 _ lo hi =>
    if std_variants v1 v2 v3 then Some (SYcc d false lo hi, SYcc d true lo hi) else None
|}.

Section Eval.
Variable junk : byte.
Variable v : variant.
Variable rd : nat -> Z -> byte.

Fixpoint seval (s : sb) : byte :=
  match s with
  | SIn k i => rd k i
  | SCst b => b
  | SJunk => junk
  | SYcc d part lo hi =>
      let r := ycc_scalar d v (u16le (seval lo) (seval hi)) in
      if part then hi8 r else lo8 r
  end.

Lemma byte_or_0_l : forall b, byte_or x00 b = b.
Proof. intros. unfold byte_or. change (b2z x00) with 0. rewrite Z.lor_0_l. apply z2b_b2z. Qed.
Lemma byte_or_0_r : forall b, byte_or b x00 = b.
Proof. intros. unfold byte_or. change (b2z x00) with 0. rewrite Z.lor_0_r. apply z2b_b2z. Qed.
Lemma byte_and_0_l : forall b, byte_and x00 b = x00.
Proof. intros. unfold byte_and. change (b2z x00) with 0. rewrite Z.land_0_l. reflexivity. Qed.
Lemma byte_and_0_r : forall b, byte_and b x00 = x00.
Proof. intros. unfold byte_and. change (b2z x00) with 0. rewrite Z.land_0_r. reflexivity. Qed.
Lemma byte_and_ff_r : forall b, byte_and b xff = b.
Proof.
  intros. unfold byte_and. change (b2z xff) with (Z.ones 8).
  rewrite Z.land_ones by lia. pose proof (b2z_bound b). rewrite Z.mod_small by (simpl; lia).
  apply z2b_b2z.
Qed.
Lemma byte_and_ff_l : forall b, byte_and xff b = b.
Proof. intros. unfold byte_and. rewrite Z.land_comm. apply byte_and_ff_r. Qed.

Lemma sor_ok : forall a b c, sor a b = Some c -> byte_or (seval a) (seval b) = seval c.
Proof.
  intros a b c H.
  assert (G : (if is_cst x00 a then Some b else if is_cst x00 b then Some a else None) = Some c ->
              byte_or (seval a) (seval b) = seval c).
  { intros G. destruct (is_cst x00 a) eqn:E1.
    - apply is_cst_eq in E1. injection G as <-. subst. apply byte_or_0_l.
    - destruct (is_cst x00 b) eqn:E2; [|discriminate].
      apply is_cst_eq in E2. injection G as <-. subst. apply byte_or_0_r. }
  unfold sor in H. destruct a; try exact (G H). destruct b; try exact (G H).
  injection H as <-. reflexivity.
Qed.

Lemma sand_ok : forall a b c, sand a b = Some c -> byte_and (seval a) (seval b) = seval c.
Proof.
  intros a b c H.
  assert (G : (if is_cst x00 a || is_cst x00 b then Some (SCst x00)
            else if is_cst xff a then Some b else if is_cst xff b then Some a else None) = Some c ->
              byte_and (seval a) (seval b) = seval c).
  { intros G. destruct (is_cst x00 a) eqn:E1; simpl orb in G.
    { apply is_cst_eq in E1. injection G as <-. subst. apply byte_and_0_l. }
    destruct (is_cst x00 b) eqn:E2.
    { apply is_cst_eq in E2. injection G as <-. subst. apply byte_and_0_r. }
    destruct (is_cst xff a) eqn:E3.
    { apply is_cst_eq in E3. injection G as <-. subst. apply byte_and_ff_l. }
    destruct (is_cst xff b) eqn:E4; [|discriminate].
    apply is_cst_eq in E4. injection G as <-. subst. apply byte_and_ff_r. }
  unfold sand in H. destruct a; try exact (G H). destruct b; try exact (G H).
  injection H as <-. reflexivity.
Qed.

(** ** The symbolic result describes the concrete one *)

Lemma mapM_map : forall A B C (f : A -> option B) (g : A -> option C) (h : B -> C) l r,
  (forall a b, In a l -> f a = Some b -> g a = Some (h b)) ->
  mapM f l = Some r -> mapM g l = Some (map h r).
Proof.
  intros A B C f g h. induction l as [|a l IH]; intros r Hf H; simpl in *.
  - injection H as <-. reflexivity.
  - destruct (f a) as [b|] eqn:E; [|discriminate].
    destruct (mapM f l) as [r'|] eqn:E'; [|discriminate]. injection H as <-.
    rewrite (Hf a b (or_introl eq_refl) E). rewrite (IH r'); [reflexivity| |reflexivity].
    intros a' b' Hin. apply Hf. right. exact Hin.
Qed.

Lemma mapM_compose : forall A B C (f : A -> option B) (g : C -> option B) (h : C -> A) l,
  (forall c, In c l -> g c = f (h c)) -> mapM g l = mapM f (map h l).
Proof.
  intros A B C f g h. induction l as [|c l IH]; intros H; simpl; [reflexivity|].
  rewrite (H c (or_introl eq_refl)). rewrite IH; [reflexivity|].
  intros c' Hc. apply H. right. exact Hc.
Qed.

Let D := cdom junk (vnum v).

Lemma do_pick_ok : forall args p s,
  do_pick sdom args p = Some s -> do_pick D (map (map seval) args) p = Some (seval s).
Proof.
  intros args p s H. destruct p as [a i| |]; simpl in *.
  - rewrite nth_error_map. destruct (nth_error args a) as [l|]; [|discriminate]. simpl.
    destruct (0 <=? i); [|discriminate].
    rewrite nth_error_map, H. reflexivity.
  - injection H as <-. reflexivity.
  - injection H as <-. reflexivity.
Qed.

Lemma picks_ok : forall args ps r,
  picks sdom args ps = Some r -> picks D (map (map seval) args) ps = Some (map seval r).
Proof.
  intros args ps r H. unfold picks in *. eapply mapM_map; [|exact H].
  intros p s _. apply do_pick_ok.
Qed.

Lemma consts_ok : forall l c, consts sdom l = Some c -> consts D (map seval l) = Some c.
Proof.
  induction l as [|s l IH]; intros c H; simpl in *; [exact H|].
  unfold consts in *. simpl in *.
  destruct s as [k i|b| |d p lo hi]; try discriminate. simpl.
  destruct (mapM _ l) as [r|] eqn:E; [|discriminate].
  specialize (IH r eq_refl). rewrite IH. exact H.
Qed.

Lemma map2M_ok : forall f g,
  (forall a b c, f a b = Some c -> g (seval a) (seval b) = Some (seval c)) ->
  forall a b r, map2M f a b = Some r -> map2M g (map seval a) (map seval b) = Some (map seval r).
Proof.
  intros f g Hf. induction a as [|x a IH]; intros [|y b] r H; simpl in *; try discriminate.
  - injection H as <-. reflexivity.
  - destruct (f x y) as [z|] eqn:E; [|discriminate].
    destruct (map2M f a b) as [r'|] eqn:E'; [|discriminate]. injection H as <-.
    rewrite (Hf _ _ _ E), (IH _ _ E'). reflexivity.
Qed.

Lemma ycc_lanes_ok : forall i d v1 v2 v3, v <> VNone ->
  forall n l odd r, (List.length l <= n)%nat ->
  ycc_lanes (d_ycc sdom i d v1 v2 v3) odd l = Some r ->
  ycc_lanes (d_ycc D i d v1 v2 v3) odd (map seval l) = Some (map seval r).
Proof.
  intros i d v1 v2 v3 Hv. induction n as [|n IH]; intros l odd r Hn H.
  - destruct l; simpl in Hn; [|lia]. simpl in *. injection H as <-. reflexivity.
  - destruct l as [|lo [|hi l]]; simpl in H; try discriminate.
    + injection H as <-. reflexivity.
    + destruct (std_variants v1 v2 v3) eqn:Ev; [|discriminate].
      destruct (ycc_lanes _ (negb odd) l) as [r'|] eqn:E; [|discriminate].
      injection H as <-.
      assert (Hl : (List.length l <= n)%nat) by (simpl in Hn; lia).
      simpl in IH. specialize (IH l (negb odd) r' Hl).
      rewrite Ev in IH. specialize (IH E).
      simpl. rewrite IH.
      assert (Hsel : vsel (vnum v) v1 v2 v3 = Some v).
      { destruct v1, v2, v3; simpl in Ev; try discriminate. destruct v; try reflexivity. contradiction. }
      rewrite Hsel.
      rewrite (ycc_is_scalar i d v odd) by apply u16le_bound.
      reflexivity.
Qed.

Lemma apply_op_ok : forall o args r,
  (match o with OYcc _ _ _ _ _ => v <> VNone | _ => True end) ->
  apply_op sdom o args = Some r ->
  apply_op D o (map (map seval) args) = Some (map seval r).
Proof.
  intros o args r Hv H.
  destruct o; destruct args as [|a [|b [|c [|a4 args]]]]; simpl in H; try discriminate;
    cbn [map]; cbn [apply_op]; try rewrite !zlen_map;
    try (exact (picks_ok _ _ _ H)).
  - injection H as <-. reflexivity.
  - injection H as <-. f_equal. rewrite map_map. apply map_ext. reflexivity.
  - injection H as <-. rewrite map_app. reflexivity.
  - eapply map2M_ok; [|exact H]. intros x y z Hxy. simpl in *. f_equal. apply sor_ok. exact Hxy.
  - eapply map2M_ok; [|exact H]. intros x y z Hxy. simpl in *. f_equal. apply sand_ok. exact Hxy.
  - destruct (consts sdom b) as [c'|] eqn:E; [|discriminate].
    rewrite (consts_ok _ _ E). exact (picks_ok _ _ _ H).
  - destruct (consts sdom a) as [c'|] eqn:E; [|discriminate].
    rewrite (consts_ok _ _ E). exact (picks_ok _ _ _ H).
  - destruct (consts sdom b) as [c'|] eqn:E; [|discriminate].
    rewrite (consts_ok _ _ E). exact (picks_ok _ _ _ H).
  - eapply ycc_lanes_ok; [exact Hv|apply le_n|exact H].
Qed.
End Eval.
