(** Proofs of C90. *)
From Verif Require Import Base.Bytes Base.Res Model.Color565 Model.Kernel Model.Transform Model.BigEndian Model.BeTransform Model.Calls.
From Verif Require Import Spec.YCoCg Spec.Layout Spec.BigEndian Spec.Files Spec.Calls.
From Verif Require Import Proofs.KernelCheck Proofs.KernelLoop Proofs.KernelFun Proofs.Shapes Proofs.BeShapes Proofs.LayoutFacts Proofs.ShapeLayout
  Proofs.Families Proofs.BeFamilies Proofs.TransformFacts Proofs.SliceFacts Proofs.BeTransformFacts Proofs.BeSliceFacts Proofs.BigEndianFacts Proofs.BigEndianProps.
From Coq Require Import ZifyBool ZifyNat.
Open Scope list_scope.

Definition big (m : machine) : bool := match m with Little _ => false | Big _ _ => true end.
Definition lay_of (b : bool) (w : job) (x : list byte) : list byte :=
  match b, w with
  | false, Bc1 s => bc1_layout (decorrelation_mode s) (split_colour_endpoints s) x
  | false, Bc2 s => bc2_layout (decorrelation_mode s) (split_colour_endpoints s) x
  | false, Bc3 s => bc3_layout (decorrelation_mode3 s) (split_alpha_endpoints s) (split_colour_endpoints3 s) x
  | true, Bc1 s => be_bc1_layout (decorrelation_mode s) (split_colour_endpoints s) x
  | true, Bc2 s => be_bc2_layout (decorrelation_mode s) (split_colour_endpoints s) x
  | true, Bc3 s => be_bc3_layout (decorrelation_mode3 s) (split_alpha_endpoints s) (split_colour_endpoints3 s) x
  end.

Ltac fam b w := destruct b, w as [s | s | s]; cbn [lay_of block] in *;
  [ destruct (be_bc1_fam (decorrelation_mode s) (split_colour_endpoints s)) as (sht & shu & FM)
  | destruct (be_bc2_fam (decorrelation_mode s) (split_colour_endpoints s)) as (sht & shu & FM)
  | destruct (be_bc3_fam (decorrelation_mode3 s) (split_alpha_endpoints s) (split_colour_endpoints3 s)) as (sht & shu & FM)
  | destruct (bc1_fam (decorrelation_mode s) (split_colour_endpoints s)) as (sht & shu & FM)
  | destruct (bc2_fam (decorrelation_mode s) (split_colour_endpoints s)) as (sht & shu & FM)
  | destruct (bc3_fam (decorrelation_mode3 s) (split_alpha_endpoints s) (split_colour_endpoints3 s)) as (sht & shu & FM)].

Lemma lay_of_len : forall b w x, zlen x mod block w = 0 -> List.length (lay_of b w x) = List.length x.
Proof. intros b w x M. fam b w; apply (fam_len _ _ _ _ _ _ FM); unfold zlen in M; lia. Qed.
Lemma lay_of_inj : forall b w x y, zlen x mod block w = 0 -> List.length x = List.length y -> lay_of b w x = lay_of b w y -> x = y.
Proof.
  intros b w x y M L E. fam b w; (eapply (fam_inj2 _ _ _ _ _ _ x y FM); [lia | unfold zlen in M; lia | exact L | exact E]).
Qed.

Lemma forward : forall k x, x <> [] -> allowed (zlen x) k -> k_back k = false ->
  perform k x = Ok (ROk tt, lay_of (big (k_on k)) (k_job k) x ++ skipn (List.length x) (k_out k)).
Proof.
  intros [m w b o] x NE (G & M & O) B. cbn in B. subst b. unfold perform. cbn [k_on k_job k_back k_out] in *.
  destruct m as [c | d j], w as [s | s | s]; cbn [good block lay_of big] in *; try destruct G as (G1 & G2).
  - apply bc1_slice; auto.
  - apply bc2_slice; auto.
  - apply bc3_slice; auto.
  - apply be_bc1_slice; auto using big_endian_ok.
  - apply be_bc2_slice; auto using big_endian_ok.
  - apply be_bc3_slice; auto using big_endian_ok.
Qed.
Lemma backward : forall k x, x <> [] -> allowed (zlen x) k -> k_back k = true ->
  exists y, perform k x = Ok (ROk tt, y ++ skipn (List.length x) (k_out k)) /\ List.length y = List.length x /\ lay_of (big (k_on k)) (k_job k) y = x.
Proof.
  intros [m w b o] x NE (G & M & O) B. cbn in B. subst b. unfold perform. cbn [k_on k_job k_back k_out] in *.
  destruct m as [c | d j], w as [s | s | s]; cbn [good block lay_of big] in *; try destruct G as (G1 & G2).
  - apply unbc1_slice; auto.
  - apply unbc2_slice; auto.
  - apply unbc3_slice; auto.
  - apply be_unbc1_slice; auto using big_endian_ok.
  - apply be_unbc2_slice; auto using big_endian_ok.
  - apply be_unbc3_slice; auto using big_endian_ok.
Qed.

(** What a call does to the texture. *)
Definition turns (b : bool) (w : job) (back : bool) (x y : list byte) : Prop :=
  List.length y = List.length x /\ if back then lay_of b w y = x else y = lay_of b w x.

Lemma call_turns : forall k x, x <> [] -> allowed (zlen x) k -> exists y,
  perform k x = Ok (ROk tt, y ++ skipn (List.length x) (k_out k)) /\ turns (big (k_on k)) (k_job k) (k_back k) x y.
Proof.
  intros k x NE A. pose proof A as (_ & M & _). destruct (k_back k) eqn:B.
  - destruct (backward k x NE A B) as (y & P & L & E). exists y. split; [exact P|]. split; assumption.
  - exists (lay_of (big (k_on k)) (k_job k) x). split; [apply forward; assumption|]. split; [|reflexivity]. apply lay_of_len. exact M.
Qed.
Lemma turns_fun : forall b w back x y y', zlen x mod block w = 0 -> turns b w back x y -> turns b w back x y' -> y = y'.
Proof.
  intros b w back x y y' M (L1 & E1) (L2 & E2). destruct back; [|congruence].
  apply (lay_of_inj b w); [unfold zlen in *; rewrite L1; exact M | congruence | congruence].
Qed.
Lemma turns_back : forall b w back x y, turns b w back x y -> turns b w (negb back) y x.
Proof. intros b w back x y (L & E). split; [congruence|]. destruct back; cbn [negb]; congruence. Qed.

Lemma order_big : forall m m', same_order m m' -> big m' = big m.
Proof. intros [c | d j] [c' | d' j'] H; cbn in *; tauto || reflexivity. Qed.
Lemma ne_len : forall x y : list byte, x <> [] -> List.length y = List.length x -> y <> [].
Proof. intros x y NE L E. subst y. destruct x; [congruence|discriminate L]. Qed.
Lemma allowed_len : forall (x y : list byte), List.length y = List.length x -> zlen y = zlen x.
Proof. intros x y L. unfold zlen. rewrite L. reflexivity. Qed.

Fixpoint turnss (ks : list call) (x z : list byte) : Prop :=
  match ks with
  | [] => z = x
  | k :: ks => exists y, turns (big (k_on k)) (k_job k) (k_back k) x y /\ turnss ks y z
  end.
Lemma run_turns : forall ks x, x <> [] -> Forall (allowed (zlen x)) ks -> exists z, performs ks x = Ok (ROk z) /\ turnss ks x z /\ List.length z = List.length x.
Proof.
  induction ks as [|k ks IH]; intros x NE A.
  - exists x. split; [reflexivity|]. split; reflexivity.
  - pose proof (Forall_inv A) as A1. pose proof (Forall_inv_tail A) as A2. destruct (call_turns k x NE A1) as (y & P & T). pose proof T as (L & _).
    rewrite <- (allowed_len x y L) in A2. destruct (IH y (ne_len x y NE L) A2) as (z & R & TS & LZ).
    exists z. split; [|split; [exists y; split; assumption | congruence]].
    cbn [performs]. rewrite P. unfold bind. cbn [fst snd]. rewrite app_take by congruence. exact R.
Qed.
Lemma turnss_fun : forall ks ks' x z z', Forall (fun k => zlen x mod block (k_job k) = 0) ks -> Forall2 alike ks ks' -> turnss ks x z -> turnss ks' x z' -> z = z'.
Proof.
  intros ks ks' x z z' A F. revert x z z' A. induction F as [|k k' ks ks' (E1 & E2 & E3) F IH]; intros x z z' A; cbn [turnss].
  - congruence.
  - intros (y & T & TS) (y' & T' & TS'). rewrite E1, E2, (order_big _ _ E3) in T'.
    pose proof (turns_fun _ _ _ _ _ _ (Forall_inv A) T T') as <-. apply (IH y); auto.
    pose proof (Forall_inv_tail A) as A2. destruct T as (L & _). rewrite (allowed_len x y L). exact A2.
Qed.
Lemma turnss_snoc : forall ks k x z, turnss (ks ++ [k]) x z <-> exists y, turnss ks x y /\ turns (big (k_on k)) (k_job k) (k_back k) y z.
Proof.
  induction ks as [|k0 ks IH]; intros k x z; cbn [turnss app].
  - split; [intros (y & T & ->); exists x; auto | intros (y & -> & T); exists z; auto].
  - split.
    + intros (y & T & TS). apply IH in TS as (y1 & T1 & T2). exists y1. split; [exists y; auto|exact T2].
    + intros (y & (y1 & T1 & TS) & T2). exists y1. split; [exact T1|]. apply IH. exists y. auto.
Qed.
Lemma turnss_back : forall ks bs x z, Forall2 takes_back ks bs -> turnss ks x z -> turnss (rev bs) z x.
Proof.
  intros ks bs x z F. revert x z. induction F as [|k b ks bs (E1 & E2 & E3) F IH]; intros x z; cbn [turnss rev].
  - congruence.
  - intros (y & T & TS). apply turnss_snoc. exists y. split; [apply IH; exact TS|]. rewrite E1, E2, (order_big _ _ E3). apply turns_back. exact T.
Qed.
Lemma ok_in : forall (a b : list byte) (E : Type), @Ok (result (list byte) E) (ROk a) = Ok (ROk b) -> a = b.
Proof. intros a b E H. injection H. auto. Qed.

Lemma always_succeeds : forall ks x, x <> [] -> Forall (allowed (zlen x)) ks -> exists z, performs ks x = Ok (ROk z) /\ zlen z = zlen x.
Proof. intros ks x NE A. destruct (run_turns ks x NE A) as (z & R & _ & L). exists z. split; [exact R|]. apply allowed_len, L. Qed.

Lemma jobs_fit : forall ks len, Forall (allowed len) ks -> Forall (fun k => len mod block (k_job k) = 0) ks.
Proof. intros ks len A. eapply Forall_impl; [|exact A]. intros k (_ & M & _). exact M. Qed.
Lemma alike_refl : forall ks, Forall2 alike ks ks.
Proof. induction ks as [|[m w b o] ks IH]; constructor; [|exact IH]. repeat split. destruct m; exact Logic.I. Qed.

Lemma same_anywhere : forall ks ks' x, x <> [] -> Forall (allowed (zlen x)) ks -> Forall (allowed (zlen x)) ks' -> Forall2 alike ks ks' -> performs ks x = performs ks' x.
Proof.
  intros ks ks' x NE A A' F. destruct (run_turns ks x NE A) as (z & R & T & _), (run_turns ks' x NE A') as (z' & R' & T' & _).
  rewrite R, R'. do 2 f_equal. exact (turnss_fun ks ks' x z z' (jobs_fit _ _ A) F T T').
Qed.
Lemma taken_back : forall ks bs x z, x <> [] -> Forall (allowed (zlen x)) ks -> Forall (allowed (zlen x)) bs -> Forall2 takes_back ks bs ->
  performs ks x = Ok (ROk z) -> performs (rev bs) z = Ok (ROk x).
Proof.
  intros ks bs x z NE A B F R. destruct (run_turns ks x NE A) as (z' & R' & T & L). rewrite R in R'. apply ok_in in R' as <-.
  apply (turnss_back ks bs x z F) in T.
  assert (B' : Forall (allowed (zlen z)) (rev bs)) by (rewrite (allowed_len x z L); apply Forall_rev; exact B).
  destruct (run_turns (rev bs) z (ne_len x z NE L) B') as (x' & R' & T' & _). rewrite R'. do 2 f_equal.
  exact (turnss_fun (rev bs) (rev bs) z x' x (jobs_fit _ _ B') (alike_refl _) T' T).
Qed.
Lemma never_merged : forall ks ks' x x' z, x <> [] -> zlen x' = zlen x -> Forall (allowed (zlen x)) ks -> Forall (allowed (zlen x)) ks' -> Forall2 alike ks ks' ->
  performs ks x = Ok (ROk z) -> performs ks' x' = Ok (ROk z) -> x = x'.
Proof.
  intros ks ks' x x' z NE L A A' F R R'.
  assert (NE' : x' <> []) by (intros ->; destruct x; [congruence|]; unfold zlen in L; cbn in L; lia).
  assert (AL : Forall2 alike ks ks' -> Forall (allowed (zlen x)) ks -> performs ks x' = performs ks' x').
  { intros. apply same_anywhere; try assumption; rewrite L; assumption. }
  specialize (AL F A). rewrite <- AL in R'. clear AL.
  set (bs := map (fun k => Call (k_on k) (k_job k) (negb (k_back k)) (k_out k)) ks).
  assert (TB : Forall2 takes_back ks bs).
  { unfold bs. clear. induction ks as [|[m w b o] ks IH]; constructor; [|exact IH]. repeat split. destruct m; exact Logic.I. }
  assert (BA : Forall (allowed (zlen x)) bs).
  { unfold bs. apply Forall_map. eapply Forall_impl; [|exact A]. intros [m w b o] H. exact H. }
  pose proof (taken_back ks bs x z NE A BA TB R) as X. rewrite <- L in A, BA. pose proof (taken_back ks bs x' z NE' A BA TB R') as X'.
  rewrite X in X'. apply ok_in in X'. exact X'.
Qed.
