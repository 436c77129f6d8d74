(** Bytes, little-endian integers and list surgery used by the whole model.
    Nothing here models code of the repository; it is the vocabulary the model
    is written in. *)
From Coq Require Export ZArith List Bool Lia String.
From Coq Require Export Init.Byte.
From Coq Require Strings.Byte.
From Coq Require Import ZifyBool ZifyNat ZifyN.
Export ListNotations.
Global Open Scope Z_scope.
Global Open Scope list_scope.

Ltac Zify.zify_post_hook ::= Z.div_mod_to_equations.

(** A byte as an integer in [0,256). *)
Definition b2z (b : byte) : Z := Z.of_N (Byte.to_N b).

(** An integer truncated to a byte (Rust's [as u8]). *)
Definition z2b (z : Z) : byte :=
  match Byte.of_N (Z.to_N (z mod 256)) with
  | Some b => b
  | None => x00
  end.

Lemma b2z_bound : forall b, 0 <= b2z b < 256.
Proof.
  intros b. unfold b2z. pose proof (Byte.to_N_bounded b). lia.
Qed.

Lemma z2b_b2z : forall b, z2b (b2z b) = b.
Proof.
  intros b. unfold z2b. pose proof (b2z_bound b).
  rewrite Z.mod_small by lia. unfold b2z. rewrite N2Z.id.
  rewrite Byte.of_to_N. reflexivity.
Qed.

Lemma b2z_z2b : forall z, b2z (z2b z) = z mod 256.
Proof.
  intros z. unfold z2b.
  pose proof (Z.mod_pos_bound z 256 ltac:(lia)) as H.
  destruct (Byte.of_N (Z.to_N (z mod 256))) as [b|] eqn:E.
  - apply Byte.to_of_N in E. unfold b2z. rewrite E. rewrite Z2N.id by lia. reflexivity.
  - apply Byte.of_N_None_iff in E. lia.
Qed.

Lemma b2z_inj : forall a b, b2z a = b2z b -> a = b.
Proof. intros a b H. rewrite <- (z2b_b2z a), <- (z2b_b2z b), H. reflexivity. Qed.

Lemma byte_eqb_eq : forall a b, Byte.eqb a b = true <-> a = b.
Proof.
  intros a b. split.
  - intros H. pose proof (Byte.byte_dec_bl a b H). assumption.
  - apply Byte.byte_dec_lb.
Qed.

(** Little-endian pairs: Rust's [u16::from_le_bytes] / [to_le_bytes]. *)
Definition u16le (lo hi : byte) : Z := b2z lo + 256 * b2z hi.
Definition lo8 (z : Z) : byte := z2b z.
Definition hi8 (z : Z) : byte := z2b (z / 256).

Lemma u16le_bound : forall lo hi, 0 <= u16le lo hi < 65536.
Proof. intros. unfold u16le. pose proof (b2z_bound lo). pose proof (b2z_bound hi). lia. Qed.

Lemma lo8_u16le : forall lo hi, lo8 (u16le lo hi) = lo.
Proof.
  intros. apply b2z_inj. unfold lo8, u16le. rewrite b2z_z2b.
  pose proof (b2z_bound lo). pose proof (b2z_bound hi). lia.
Qed.

Lemma hi8_u16le : forall lo hi, hi8 (u16le lo hi) = hi.
Proof.
  intros. apply b2z_inj. unfold hi8, u16le. rewrite b2z_z2b.
  pose proof (b2z_bound lo). pose proof (b2z_bound hi). lia.
Qed.

Lemma u16le_lo_hi : forall z, 0 <= z < 65536 -> u16le (lo8 z) (hi8 z) = z.
Proof. intros. unfold u16le, lo8, hi8. rewrite !b2z_z2b. lia. Qed.

(** [u32::from_le_bytes] *)
Definition u32le (a b c d : byte) : Z :=
  b2z a + 256 * b2z b + 65536 * b2z c + 16777216 * b2z d.

Lemma u32le_bound : forall a b c d, 0 <= u32le a b c d < 4294967296.
Proof.
  intros. unfold u32le.
  pose proof (b2z_bound a). pose proof (b2z_bound b).
  pose proof (b2z_bound c). pose proof (b2z_bound d). lia.
Qed.

Definition u32_bytes (z : Z) : list byte :=
  [z2b z; z2b (z / 256); z2b (z / 65536); z2b (z / 16777216)].

(** Length of a list as an integer. *)
Definition zlen {A} (l : list A) : Z := Z.of_nat (List.length l).

Lemma zlen_nonneg : forall A (l : list A), 0 <= zlen l.
Proof. intros. unfold zlen. lia. Qed.
Lemma zlen_app : forall A (a b : list A), zlen (a ++ b) = zlen a + zlen b.
Proof. intros. unfold zlen. rewrite app_length. lia. Qed.
Lemma zlen_cons : forall A (a : A) l, zlen (a :: l) = 1 + zlen l.
Proof. intros. unfold zlen. simpl List.length. lia. Qed.
Lemma zlen_nil : forall A, zlen (@nil A) = 0.
Proof. reflexivity. Qed.
Lemma zlen_map : forall A B (f : A -> B) l, zlen (map f l) = zlen l.
Proof. intros. unfold zlen. rewrite map_length. reflexivity. Qed.

(** [znth l i]: element [i] of a byte list. Only ever used with
    [0 <= i < zlen l]; the default is unobservable there. *)
Definition znth (l : list byte) (i : Z) : byte := nth (Z.to_nat i) l x00.

(** [slice l off n]: the [n] bytes at offset [off]. *)
Definition slice {A} (l : list A) (off n : Z) : list A :=
  firstn (Z.to_nat n) (skipn (Z.to_nat off) l).

(** [splice l off d]: [l] with the bytes at [off ..] overwritten by [d]. *)
Definition splice {A} (l : list A) (off : Z) (d : list A) : list A :=
  firstn (Z.to_nat off) l ++ d ++ skipn (Z.to_nat off + List.length d) l.

Lemma zlen_slice : forall A (l : list A) off n,
  0 <= off -> 0 <= n -> off + n <= zlen l -> zlen (slice l off n) = n.
Proof.
  intros A l off n H1 H2 H3. unfold slice, zlen in *.
  rewrite firstn_length, skipn_length. lia.
Qed.

Lemma zlen_splice : forall A (l : list A) off d,
  0 <= off -> off + zlen d <= zlen l -> zlen (splice l off d) = zlen l.
Proof.
  intros A l off d H1 H2. unfold splice, zlen in *.
  rewrite !app_length, firstn_length, skipn_length. lia.
Qed.

Lemma skipn_skipn' : forall A (l : list A) a b, skipn a (skipn b l) = skipn (a + b) l.
Proof.
  intros A l a b. revert l. induction b as [|b IH]; intros l.
  - rewrite Nat.add_0_r. reflexivity.
  - destruct l as [|x l]; [rewrite !skipn_nil; reflexivity|].
    rewrite Nat.add_succ_r. simpl. apply IH.
Qed.

Lemma nth_skipn : forall A (l : list A) n i d, nth i (skipn n l) d = nth (n + i) l d.
Proof.
  intros A l n. revert l. induction n as [|n IH]; intros l i d; simpl; [reflexivity|].
  destruct l as [|x l]; [destruct i; reflexivity|]. simpl. apply IH.
Qed.

Lemma nth_firstn : forall A (l : list A) n i d, (i < n)%nat -> nth i (firstn n l) d = nth i l d.
Proof.
  intros A l n. revert l. induction n as [|n IH]; intros l i d H; [lia|].
  destruct l as [|x l]; [destruct i; reflexivity|].
  destruct i; simpl; [reflexivity|]. apply IH. lia.
Qed.

Lemma znth_slice : forall l off n i,
  0 <= off -> 0 <= i < n -> znth (slice l off n) i = znth l (off + i).
Proof.
  intros l off n i H1 H2. unfold znth, slice.
  rewrite nth_firstn by lia. rewrite nth_skipn.
  f_equal. lia.
Qed.

Lemma znth_splice : forall l off d i,
  0 <= off -> off + zlen d <= zlen l -> 0 <= i ->
  znth (splice l off d) i =
  if (off <=? i) && (i <? off + zlen d) then znth d (i - off) else znth l i.
Proof.
  intros l off d i H1 H2 H3. unfold znth, splice, zlen in *.
  destruct ((off <=? i) && (i <? off + Z.of_nat (List.length d))) eqn:E.
  - rewrite app_nth2; rewrite firstn_length; [|lia].
    rewrite app_nth1 by lia. f_equal. lia.
  - destruct (i <? off) eqn:E2.
    + rewrite app_nth1 by (rewrite firstn_length; lia).
      apply nth_firstn. lia.
    + rewrite app_nth2; rewrite firstn_length; [|lia].
      rewrite app_nth2 by lia. rewrite nth_skipn. f_equal. lia.
Qed.

Lemma znth_app1 : forall a b i, 0 <= i < zlen a -> znth (a ++ b) i = znth a i.
Proof. intros. unfold znth, zlen in *. apply app_nth1. lia. Qed.
Lemma znth_app2 : forall a b i, zlen a <= i -> znth (a ++ b) i = znth b (i - zlen a).
Proof.
  intros. unfold znth, zlen in *. rewrite app_nth2 by lia. f_equal. lia.
Qed.

(** Two byte lists of the same length that agree pointwise are equal. *)
Lemma znth_ext : forall a b,
  zlen a = zlen b -> (forall i, 0 <= i < zlen a -> znth a i = znth b i) -> a = b.
Proof.
  intros a b HL H. apply nth_ext with (d := x00) (d' := x00).
  - unfold zlen in HL. lia.
  - intros n Hn. specialize (H (Z.of_nat n)). unfold znth, zlen in H.
    rewrite !Nat2Z.id in H. apply H. lia.
Qed.

Lemma znth_map : forall A (f : A -> byte) l d i,
  0 <= i < zlen l -> znth (map f l) i = f (nth (Z.to_nat i) l d).
Proof.
  intros A f l d i H. unfold znth, zlen in *.
  rewrite nth_indep with (d' := f d) by (rewrite map_length; lia).
  apply map_nth.
Qed.

Lemma slice_app_split : forall A (l : list A) off n m,
  0 <= off -> 0 <= n -> 0 <= m -> slice l off (n + m) = slice l off n ++ slice l (off + n) m.
Proof.
  intros A l off n m H1 H2 H3. unfold slice.
  replace (Z.to_nat (off + n)) with (Z.to_nat n + Z.to_nat off)%nat by lia.
  rewrite <- skipn_skipn'.
  replace (Z.to_nat (n + m)) with (Z.to_nat n + Z.to_nat m)%nat by lia.
  generalize (skipn (Z.to_nat off) l) as l', (Z.to_nat n) as a, (Z.to_nat m) as b.
  clear. intros l' a b. revert l'. induction a as [|a IH]; intros l'; simpl; [reflexivity|].
  destruct l' as [|x l']; simpl.
  - destruct b; reflexivity.
  - f_equal. apply IH.
Qed.

Lemma slice_all : forall A (l : list A), slice l 0 (zlen l) = l.
Proof.
  intros. unfold slice, zlen. simpl. rewrite Nat2Z.id. apply firstn_all.
Qed.

Lemma splice_at_0 : forall A (l d : list A),
  splice l 0 d = d ++ skipn (List.length d) l.
Proof. intros. unfold splice. simpl. reflexivity. Qed.

(** Integer ranges and exhaustive checks over them. *)
Fixpoint zseq (start : Z) (n : nat) : list Z :=
  match n with O => [] | S n' => start :: zseq (start + 1) n' end.

Lemma in_zseq : forall n s x, In x (zseq s n) <-> s <= x < s + Z.of_nat n.
Proof.
  induction n as [|n IH]; intros s x; simpl.
  - lia.
  - rewrite IH. lia.
Qed.

Lemma zseq_length : forall n s, List.length (zseq s n) = n.
Proof. induction n; intros; simpl; auto. Qed.

Lemma nth_zseq : forall n s i d, (i < n)%nat -> nth i (zseq s n) d = s + Z.of_nat i.
Proof.
  induction n as [|n IH]; intros s i d H; [lia|]. destruct i; simpl.
  - lia.
  - rewrite IH by lia. lia.
Qed.

(** [forallz lo hi f]: [f] holds on [lo, hi); computed without building a list. *)
Fixpoint forall_from (f : Z -> bool) (n : nat) (s : Z) : bool :=
  match n with
  | O => true
  | S n' => f s && forall_from f n' (s + 1)
  end.

Lemma forall_from_spec : forall f n s,
  forall_from f n s = true -> forall x, s <= x < s + Z.of_nat n -> f x = true.
Proof.
  intros f n. induction n as [|n IH]; intros s H x Hx; [lia|].
  simpl in H. apply andb_true_iff in H. destruct H as [H1 H2].
  destruct (Z.eq_dec x s) as [->|Hne]; [assumption|].
  apply (IH (s + 1)); [assumption|lia].
Qed.

Definition forallz (lo hi : Z) (f : Z -> bool) : bool :=
  forall_from f (Z.to_nat (hi - lo)) lo.

Lemma forallz_spec : forall lo hi f,
  forallz lo hi f = true -> forall x, lo <= x < hi -> f x = true.
Proof.
  intros lo hi f H x Hx. eapply forall_from_spec; [exact H|]. lia.
Qed.
