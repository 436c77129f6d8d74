(** Damage to a transformed texture stays in the blocks it hits. *)
From Verif Require Import Base.Bytes Base.Res Model.Color565 Model.Ycc Model.Kernel Model.Transform
  Proofs.KernelCheck Proofs.KernelLoop Proofs.KernelFun Proofs.Shapes Spec.YCoCg Spec.Layout Spec.Damage
  Proofs.LayoutFacts Proofs.ShapeLayout Proofs.Families Proofs.TransformFacts Proofs.SliceFacts.
From Coq Require Import ZifyBool ZifyNat.

(** ** Counting *)
Lemma count_blocks : forall (N n B : nat) (own : nat -> nat) (D G : nat -> bool),
  (forall p, (p < N)%nat -> (own p < n)%nat) ->
  (forall p, (p < N)%nat -> D p = true -> G (own p) = true) ->
  (forall i, (i < n)%nat -> G i = true -> exists p, (p < N)%nat /\ own p = i /\ D p = true) ->
  (forall i, (i < n)%nat -> List.length (filter (fun p => (own p =? i)%nat) (seq 0 N)) = B) ->
  (List.length (filter G (seq 0 n)) <= List.length (filter D (seq 0 N)) <= B * List.length (filter G (seq 0 n)))%nat.
Proof.
  intros N n B own D G HO HD HG HB. split.
  - rewrite <- (map_length own (filter D (seq 0 N))). apply NoDup_incl_length; [apply NoDup_filter, seq_NoDup|].
    intros i Hi. apply filter_In in Hi. destruct Hi as (Hi & Gi). apply in_seq in Hi.
    destruct (HG i ltac:(lia) Gi) as (p & Hp & <- & Dp). apply in_map, filter_In. split; [apply in_seq; lia|exact Dp].
  - transitivity (List.length (flat_map (fun i => filter (fun p => (own p =? i)%nat) (seq 0 N)) (filter G (seq 0 n)))).
    + apply NoDup_incl_length; [apply NoDup_filter, seq_NoDup|]. intros p Hp. apply filter_In in Hp. destruct Hp as (Hp & Dp).
      assert (Q : (p < N)%nat) by (apply in_seq in Hp; lia). apply in_flat_map. exists (own p). split.
      * apply filter_In. split; [apply in_seq; specialize (HO p Q); lia|exact (HD p Q Dp)].
      * apply filter_In. split; [exact Hp|apply Nat.eqb_refl].
    + assert (E : forall l, (forall i, In i l -> (i < n)%nat) -> List.length (flat_map (fun i => filter (fun p => (own p =? i)%nat) (seq 0 N)) l) = (B * List.length l)%nat).
      { induction l as [|i l IH]; intros H; [cbn; lia|]. cbn [flat_map List.length]. rewrite app_length, HB, IH by (intros; apply H; first [left; reflexivity | right; assumption]). lia. }
      rewrite E; [lia|]. intros i Hi. apply filter_In in Hi. destruct Hi as (Hi & _). apply in_seq in Hi. lia.
Qed.

Lemma combine_count : forall {A} (d : A) (f : A -> A -> bool) (a b : list A), List.length a = List.length b ->
  List.length (filter (fun p => f (fst p) (snd p)) (combine a b)) = List.length (filter (fun i => f (nth i a d) (nth i b d)) (seq 0 (List.length a))).
Proof.
  intros A d f a. induction a as [|x a IH]; intros [|y b] H; try discriminate H; [reflexivity|].
  injection H as H. cbn [combine filter List.length seq fst snd]. change (nth 0 (x :: a) d) with x. change (nth 0 (y :: b) d) with y. rewrite <- seq_shift.
  assert (E : List.length (filter (fun i => f (nth i (x :: a) d) (nth i (y :: b) d)) (map S (seq 0 (List.length a)))) =
    List.length (filter (fun i => f (nth i a d) (nth i b d)) (seq 0 (List.length a)))).
  { generalize (seq 0 (List.length a)) as l. induction l as [|i l IHl]; [reflexivity|]. cbn [map filter].
    change (nth (S i) (x :: a) d) with (nth i a d). change (nth (S i) (y :: b) d) with (nth i b d). destruct (f (nth i a d) (nth i b d)); cbn [List.length]; rewrite IHl; reflexivity. }
  destruct (f x y); cbn [List.length]; rewrite E, (IH b H); reflexivity.
Qed.

Lemma owner_lt : forall ws n p, Forall (fun w => (0 < w)%nat) ws -> (p < n * sum ws)%nat -> (owner ws n p < n)%nat.
Proof.
  induction ws as [|w ws IH]; intros n p Hw Hp; [simpl in Hp; lia|]. inversion Hw; subst. cbn [owner].
  destruct (Nat.ltb_spec p (n * w)); [apply Nat.div_lt_upper_bound; lia|]. apply IH; [assumption|].
  cbn [sum fold_right] in Hp. fold (sum ws) in Hp. lia.
Qed.

(** ** Textures *)
Section Fam.
Variables (v : variant) (sht shu : shape) (k : nat) (fs : list field) (ws : list nat).
Hypotheses (FM : FAM v sht shu k fs ws) (Hk : (0 < k)%nat) (Hw : Forall (fun w => (0 < w)%nat) ws).

Lemma fam_damage : forall x x', (List.length x mod k = 0)%nat -> List.length x = List.length x' ->
  let y := lay fs (blocks k x) in let y' := lay fs (blocks k x') in
  damaged_blocks k x x' <= damaged_bytes y y' <= Z.of_nat k * damaged_blocks k x x'.
Proof.
  intros x x' Hm HL y y'. pose proof (fam_div k Hk x Hm) as DV.
  pose proof (fam_len _ _ _ _ _ _ FM Hk x Hm) as Ly. pose proof (fam_len _ _ _ _ _ _ FM Hk x' ltac:(rewrite <- HL; exact Hm)) as Ly'.
  fold y in Ly. fold y' in Ly'.
  set (n := (List.length x / k)%nat) in *.
  pose (diff := fun a b : list byte => if list_eq_dec Byte.byte_eq_dec a b then false else true).
  pose (diffb := fun a b : byte => negb (Byte.eqb a b)).
  assert (SB : forall a b, diffb a b = true <-> a <> b).
  { intros a b. unfold diffb. destruct (Byte.eqb a b) eqn:E; cbn [negb].
    - apply Byte.byte_dec_bl in E. split; [discriminate|congruence].
    - split; [intros _ ->; rewrite (Byte.byte_dec_lb eq_refl) in E; discriminate|reflexivity]. }
  assert (SL : forall a b, diff a b = true <-> a <> b).
  { intros a b. unfold diff. destruct (list_eq_dec Byte.byte_eq_dec a b); split; congruence. }
  pose proof (count_blocks (List.length x) n k (owner ws n) (fun p => diffb (nth p y x00) (nth p y' x00))
    (fun i => diff (nth i (blocks k x) []) (nth i (blocks k x') []))) as C.
  assert (LB : List.length (blocks k x) = n) by (unfold blocks; apply chunks_length).
  assert (LB' : List.length (blocks k x') = n) by (unfold blocks; rewrite chunks_length, <- HL; reflexivity).
  unfold damaged_blocks, damaged_bytes, zlen.
  change (filter (fun p : byte * byte => negb (Byte.eqb (fst p) (snd p))) (combine y y')) with (filter (fun p : byte * byte => diffb (fst p) (snd p)) (combine y y')).
  change (filter (fun p : list byte * list byte => if list_eq_dec Byte.byte_eq_dec (fst p) (snd p) then false else true) (combine (blocks k x) (blocks k x'))) with
    (filter (fun p : list byte * list byte => diff (fst p) (snd p)) (combine (blocks k x) (blocks k x'))).
  rewrite (combine_count x00 diffb y y') by lia. rewrite (combine_count [] diff (blocks k x) (blocks k x')) by lia.
  rewrite Ly, LB. refine ((fun H => conj _ _) (C _ _ _ _)); try lia.
  - intros p Hp. apply owner_lt; [exact Hw|]. rewrite (fam_sum _ _ _ _ _ _ FM). fold n in DV. lia.
  - intros p Hp E. apply SB in E. apply SL. intros Q. apply E. apply (fam_local _ _ _ _ _ _ FM Hk Hw x x' p Hm HL Hp Q).
  - intros i Hi E. apply SL in E.
    destruct (existsb (fun p => (owner ws n p =? i)%nat && diffb (nth p y x00) (nth p y' x00)) (seq 0 (List.length x))) eqn:EX.
    + apply existsb_exists in EX. destruct EX as (p & Hp & Q). apply in_seq in Hp. apply andb_prop in Q. exists p. split; [lia|]. split; [apply Nat.eqb_eq; exact (proj1 Q)|exact (proj2 Q)].
    + exfalso. apply E. apply (fam_unlocal _ _ _ _ _ _ FM Hk Hw x x' i Hm HL Hi). intros p Hp Ho.
      destruct (diffb (nth p y x00) (nth p y' x00)) eqn:Q.
      * assert (T : existsb (fun p => (owner ws n p =? i)%nat && diffb (nth p y x00) (nth p y' x00)) (seq 0 (List.length x)) = true).
        { apply existsb_exists. exists p. split; [apply in_seq; lia|]. fold n in Ho. rewrite Ho, Nat.eqb_refl, Q. reflexivity. }
        rewrite T in EX. discriminate.
      * destruct (Byte.byte_eq_dec (nth p y x00) (nth p y' x00)) as [e|ne]; [exact e|]. apply SB in ne. rewrite ne in Q. discriminate.
  - intros i Hi. pose proof (owner_count ws n i Hw Hi) as Q. rewrite (fam_sum _ _ _ _ _ _ FM) in Q. rewrite <- DV in Q. exact Q.
Qed.
End Fam.
