(** Histories of calls to the C functions on a big-endian machine. *)
From Verif Require Import Base.Bytes Base.Res Model.Color565 Model.Ycc Model.Kernel Model.Transform Model.Auto Model.Builders Model.CApi Model.BeTransform Model.BeFiles Model.BeCApi
  Spec.Layout Spec.Estimator Spec.Files Spec.CApi Spec.BigEndian Spec.BeFiles Spec.BeCApi Proofs.BundleFacts Proofs.BeBundleFacts Proofs.CApiFacts Proofs.CApiHistory Proofs.BeCApi.
From Coq Require Import ZifyBool ZifyNat.

Section History.
Context {St : Type}.
Variables (k : codec) (c : cfg) (v : env).
Notation heap := (heap St). Notation history := (@history St).

Record inv (found : nat -> settings) (past : history) (h : heap) : Prop := Inv {
  i_live : forall n m, nth_error (manuals h) n = Some (Some m) -> holds past n = true /\ m = ManualBuilder (settings_of found past n);
  i_held : forall n, holds past n = true -> exists m, nth_error (manuals h) n = Some (Some m);
  i_auto : forall n a, nth_error (autos h) n = Some (Some a) -> holds_auto past n = true /\ use_all_of past n = ca_use_all a /\ estimator_of past n = Some (ca_estimator a);
  i_hauto : forall n, holds_auto past n = true -> exists a, nth_error (autos h) n = Some (Some a);
  i_found : be_found_right k found past }.
Definition INV (past : history) (h : heap) : Prop :=
  exists found, forall found', (forall i, (i < List.length (manuals h))%nat -> found' i = found i) -> inv found' past h.

(** a call that says nothing new about manual builders, and one that says nothing
    about automatic ones *)
Definition quiet (call : c_call St) (a : answered_with) : Prop :=
  forall found past n, mode_of found ((call, a) :: past) n = mode_of found past n /\ split_of found ((call, a) :: past) n = split_of found past n /\
    holds ((call, a) :: past) n = holds past n.
Definition quiet_auto (call : c_call St) (a : answered_with) : Prop :=
  forall (past : history) n, holds_auto ((call, a) :: past) n = holds_auto past n /\ use_all_of ((call, a) :: past) n = use_all_of past n /\
    estimator_of ((call, a) :: past) n = estimator_of past n.

Lemma be_found_cons : forall found (call : c_call St) a (past : history), be_found_right k found past ->
  (forall b d n o m cell, call <> CAutoTransform b (Some d) n (Some o) m cell \/ (forall o1 r, a <> GaveBuilder Success (Some o1) (Some (Some r)))) ->
  be_found_right k found ((call, a) :: past).
Proof.
  intros found call a past F H b d n o m cell o1 r [E|I]; [|exact (F _ _ _ _ _ _ _ _ I)].
  injection E as -> ->. destruct (H b d n o m cell) as [Q|Q]; [congruence|]. exfalso. exact (Q o1 r eq_refl).
Qed.

Lemma be_settings_quiet : forall found (call : c_call St) a (past : history) n, quiet call a -> settings_of found ((call, a) :: past) n = settings_of found past n.
Proof. intros found call a past n Q. unfold settings_of. destruct (Q found past n) as (-> & -> & _). reflexivity. Qed.

(** steps that change nothing *)
Lemma be_inv_same : forall found past h call a, inv found past h -> quiet call a -> quiet_auto call a ->
  (forall b d n o m cell, call <> CAutoTransform b (Some d) n (Some o) m cell \/ (forall o1 r, a <> GaveBuilder Success (Some o1) (Some (Some r)))) ->
  inv found ((call, a) :: past) h.
Proof.
  intros found past h call a [A B C D F] Q QA HF. constructor.
  - intros n m H. rewrite be_settings_quiet by exact Q. destruct (Q found past n) as (_ & _ & ->). exact (A n m H).
  - intros n H. destruct (Q found past n) as (_ & _ & E). rewrite E in H. exact (B n H).
  - intros n x H. destruct (QA past n) as (-> & -> & ->). exact (C n x H).
  - intros n H. destruct (QA past n) as (E & _). rewrite E in H. exact (D n H).
  - apply be_found_cons; assumption.
Qed.

Ltac fnd := intros ? ? ? ? ? ?; left; discriminate.

Lemma be_inv_new : forall found past h (s : settings) call a, inv found past h ->
  quiet_auto call a -> be_found_right k found ((call, a) :: past) ->
  (forall i, i <> List.length (manuals h) -> mode_of found ((call, a) :: past) i = mode_of found past i /\ split_of found ((call, a) :: past) i = split_of found past i) ->
  settings_of found ((call, a) :: past) (List.length (manuals h)) = s ->
  (forall i, holds ((call, a) :: past) i = Nat.eqb (List.length (manuals h)) i || holds past i) ->
  inv found ((call, a) :: past) (Heap (manuals h ++ [Some (ManualBuilder s)]) (autos h)).
Proof.
  intros found past h s call a [A B C D F] QA HF HO HS HH. constructor; cbn [manuals autos]; [| | | |exact HF].
  - intros n m H. rewrite nth_snoc in H. rewrite HH. destruct (Nat.eqb_spec (List.length (manuals h)) n) as [<-|N].
    + injection H as <-. split; [reflexivity|]. rewrite HS. reflexivity.
    + unfold settings_of. destruct (HO n ltac:(congruence)) as (-> & ->). exact (A n m H).
  - intros n H. rewrite HH in H. rewrite nth_snoc. destruct (Nat.eqb (List.length (manuals h)) n); [eauto|]. exact (B n H).
  - intros n x H. destruct (QA past n) as (-> & -> & ->). exact (C n x H).
  - intros n H. destruct (QA past n) as (E & _). rewrite E in H. exact (D n H).
Qed.

Lemma be_inv_change : forall found past h (f : manual_builder -> manual_builder) b m call a, inv found past h ->
  quiet_auto call a -> be_found_right k found ((call, a) :: past) -> nth_error (manuals h) b = Some (Some m) ->
  (forall i, i <> b -> mode_of found ((call, a) :: past) i = mode_of found past i /\ split_of found ((call, a) :: past) i = split_of found past i) ->
  ManualBuilder (settings_of found ((call, a) :: past) b) = f (ManualBuilder (settings_of found past b)) ->
  (forall i, holds ((call, a) :: past) i = holds past i) ->
  inv found ((call, a) :: past) (Heap (update (manuals h) b (Some (f m))) (autos h)).
Proof.
  intros found past h f b m call a [A B C D F] QA HF HN HO HS HH. constructor; cbn [manuals autos]; [| | | |exact HF].
  - intros n x H. rewrite nth_update in H. rewrite HH. destruct (Nat.eqb_spec b n) as [<-|N].
    + rewrite HN in H. injection H as <-. destruct (A b m HN) as (Q1 & ->). split; [exact Q1|]. symmetry. exact HS.
    + unfold settings_of. destruct (HO n ltac:(congruence)) as (-> & ->). exact (A n x H).
  - intros n H. rewrite HH in H. rewrite nth_update. destruct (B n H) as (x & E). rewrite E. destruct (Nat.eqb b n); eauto.
  - intros n x H. destruct (QA past n) as (-> & -> & ->). exact (C n x H).
  - intros n H. destruct (QA past n) as (E & _). rewrite E in H. exact (D n H).
Qed.

(** what an automatic transform does to the heap *)
Lemma be_auto_c_inv : forall (h : heap) st b d n o m cell code o1 cell1 (h1 : heap) st1, cpu_ok c ->
  be_auto_transform_c k c v b d n o m cell h st = Ok (code, o1, cell1, h1, st1) ->
  (h1 = h /\ code <> Success) \/
  (exists s d' o', d = Some d' /\ o = Some o' /\ code = Success /\ cell1 = Some (Some (List.length (manuals h))) /\
     h1 = Heap (manuals h ++ [Some (ManualBuilder s)]) (autos h) /\
     o1 = Some (be_texture_layout k s (firstn (Z.to_nat n) d') ++ skipn (Z.to_nat n) o')).
Proof.
  intros h st b d n o m cell code o1 cell1 h1 st1 K H. pose proof H as H0. unfold be_auto_transform_c in H.
  destruct b as [b|]; [|injection H as <- <- <- <- <-; left; split; [reflexivity|discriminate]].
  destruct d as [d|]; [|injection H as <- <- <- <- <-; left; split; [reflexivity|discriminate]].
  destruct o as [o|]; [|injection H as <- <- <- <- <-; left; split; [reflexivity|discriminate]].
  destruct cell as [cell|]; [|injection H as <- <- <- <- <-; left; split; [reflexivity|discriminate]].
  destruct (lookup (autos h) b) as [ab| |] eqn:LB; cbn [bind] in H; try discriminate.
  destruct (from_raw_parts d n) as [x| |] eqn:RD; cbn [bind] in H; try discriminate.
  destruct (from_raw_parts o m) as [y| |] eqn:RO; cbn [bind] in H; try discriminate.
  apply from_raw_inv in RD, RO.
  destruct (be_auto_c_transform k c v h d n o m b ab cell st K (proj1 RD) (proj1 RO) LB) as (code' & o1' & cell1' & h1' & st1' & E & _ & _ & _ & _ & P1 & P2).
  rewrite E in H0. injection H0 as <- <- <- <- <-.
  assert (DEC : code' = Success \/ code' <> Success) by (destruct code'; auto; right; discriminate).
  destruct DEC as [S|S].
  - right. destruct (P2 S) as (s & _ & -> & -> & ->). exists s, d, o. auto 10.
  - left. destruct (P1 S) as (_ & -> & _). auto.
Qed.

Lemma be_step_inv : forall (past : history) (h : heap) st call a h1 st1, cpu_ok c ->
  INV past h -> be_run_c_call k c v call h st = Ok (a, h1, st1) -> INV ((call, a) :: past) h1.
Proof.
  intros past h st call a h1 st1 K (found & I) H.
  assert (SAME : forall h2, h2 = h -> quiet call a -> quiet_auto call a ->
    (forall b d n o m cell, call <> CAutoTransform b (Some d) n (Some o) m cell \/ (forall o1 r, a <> GaveBuilder Success (Some o1) (Some (Some r)))) ->
    INV ((call, a) :: past) h2).
  { intros h2 -> Q QA F. exists found. intros f' A. apply be_inv_same; auto. }
  destruct call; cbn [be_run_c_call] in H.
  - (* new *)
    injection H as <- <- <-. exists found. intros f' A. cbn [manuals] in A. rewrite app_length in A. cbn [List.length] in A.
    specialize (I f' ltac:(intros i L; apply A; lia)). apply (be_inv_new f' past h default_settings); auto.
    + intros p n. cbn. auto.
    + apply be_found_cons; [exact (i_found _ _ _ I)|]. fnd.
    + intros i N. cbn. destruct (Nat.eqb_spec (List.length (manuals h)) i); [congruence|]. auto.
    + unfold settings_of. cbn. rewrite Nat.eqb_refl. reflexivity.
  - (* clone *)
    destruct b as [b|]; cbn [clone_manual] in H.
    2:{ injection H as <- <- <-. apply SAME; [reflexivity|intros ? ? ?; cbn; auto|intros ? ?; cbn; auto|fnd]. }
    destruct (lookup (manuals h) b) as [m| |] eqn:LB; cbn [bind] in H; try discriminate. injection H as <- <- <-.
    apply lookup_nth in LB. exists found. intros f' A. cbn [manuals fst snd] in *. rewrite app_length in A. cbn [List.length] in A.
    specialize (I f' ltac:(intros i L; apply A; lia)). destruct (i_live _ _ _ I b m LB) as (_ & EM). rewrite EM. apply be_inv_new; auto.
    + intros p n. cbn. auto.
    + apply be_found_cons; [exact (i_found _ _ _ I)|]. fnd.
    + intros i N. cbn. destruct (Nat.eqb_spec (List.length (manuals h)) i); [congruence|]. auto.
    + unfold settings_of. cbn. rewrite Nat.eqb_refl. reflexivity.
  - (* free *)
    destruct b as [b|]; cbn [free_manual] in H.
    2:{ injection H as <- <- <-. apply SAME; [reflexivity|intros ? ? ?; cbn; auto|intros ? ?; cbn; auto|fnd]. }
    destruct (lookup (manuals h) b) as [m| |] eqn:LB; cbn [bind] in H; try discriminate. injection H as <- <- <-.
    apply lookup_nth in LB. exists found. intros f' A. cbn [manuals] in A. rewrite update_length in A.
    specialize (I f' A). destruct I as [A1 B1 C1 D1 F1]. constructor; cbn [manuals autos]; [| | | |].
    + intros n x H. rewrite nth_update in H. cbn [holds is_h]. destruct (Nat.eqb_spec b n) as [<-|N].
      { rewrite LB in H. discriminate. } cbn [negb andb]. exact (A1 n x H).
    + intros n H. cbn [holds is_h] in H. rewrite nth_update. destruct (Nat.eqb_spec b n) as [E|N]; [discriminate|]. exact (B1 n H).
    + intros n x H. exact (C1 n x H).
    + intros n H. exact (D1 n H).
    + apply be_found_cons; [exact F1|]. fnd.
  - (* set mode *)
    destruct b as [b|]; cbn [set_decorrelation_mode change_manual] in H.
    2:{ injection H as <- <- <-. apply SAME; [reflexivity|intros ? ? ?; cbn; auto|intros ? ?; cbn; auto|fnd]. }
    unfold set_decorrelation_mode, change_manual in H.
    destruct (lookup (manuals h) b) as [m| |] eqn:LB; cbn [bind] in H; try discriminate. injection H as <- <- <-.
    apply lookup_nth in LB. exists found. intros f' A. cbn [manuals] in A. rewrite update_length in A. specialize (I f' A).
    apply (be_inv_change f' past h (fun m => manual_decorrelation_mode m mode) b m); auto.
    + intros p n. cbn. auto.
    + apply be_found_cons; [exact (i_found _ _ _ I)|]. fnd.
    + intros i N. cbn. destruct (Nat.eqb_spec b i); [congruence|]. auto.
    + unfold settings_of, manual_decorrelation_mode. cbn. rewrite Nat.eqb_refl. reflexivity.
  - (* set split *)
    destruct b as [b|]; cbn [set_split_colour_endpoints change_manual] in H.
    2:{ injection H as <- <- <-. apply SAME; [reflexivity|intros ? ? ?; cbn; auto|intros ? ?; cbn; auto|fnd]. }
    unfold set_split_colour_endpoints, change_manual in H.
    destruct (lookup (manuals h) b) as [m| |] eqn:LB; cbn [bind] in H; try discriminate. injection H as <- <- <-.
    apply lookup_nth in LB. exists found. intros f' A. cbn [manuals] in A. rewrite update_length in A. specialize (I f' A).
    apply (be_inv_change f' past h (fun m => manual_split_colour_endpoints m split) b m); auto.
    + intros p n. cbn. auto.
    + apply be_found_cons; [exact (i_found _ _ _ I)|]. fnd.
    + intros i N. cbn. destruct (Nat.eqb_spec b i); [congruence|]. auto.
    + unfold settings_of, manual_split_colour_endpoints. cbn. rewrite Nat.eqb_refl. reflexivity.
  - (* reset *)
    destruct b as [b|]; cbn [reset_to_defaults change_manual] in H.
    2:{ injection H as <- <- <-. apply SAME; [reflexivity|intros ? ? ?; cbn; auto|intros ? ?; cbn; auto|fnd]. }
    unfold reset_to_defaults, change_manual in H.
    destruct (lookup (manuals h) b) as [m| |] eqn:LB; cbn [bind] in H; try discriminate. injection H as <- <- <-.
    apply lookup_nth in LB. exists found. intros f' A. cbn [manuals] in A. rewrite update_length in A. specialize (I f' A).
    apply (be_inv_change f' past h (fun _ => manual_new) b m); auto.
    + intros p n. cbn. auto.
    + apply be_found_cons; [exact (i_found _ _ _ I)|]. fnd.
    + intros i N. cbn. destruct (Nat.eqb_spec b i); [congruence|]. auto.
    + unfold settings_of, manual_new. cbn. rewrite Nat.eqb_refl. reflexivity.
  - (* transform *)
    destruct (be_manual_transform_c k c input input_len output output_len b h) as [r| |]; cbn [bind] in H; try discriminate. injection H as <- <- <-.
    apply SAME; [reflexivity|intros ? ? ?; cbn; auto|intros ? ?; cbn; auto|fnd].
  - destruct (be_manual_untransform_c k c input input_len output output_len b h) as [r| |]; cbn [bind] in H; try discriminate. injection H as <- <- <-.
    apply SAME; [reflexivity|intros ? ? ?; cbn; auto|intros ? ?; cbn; auto|fnd].
  - (* new auto *)
    destruct e as [e|]; cbn [new_auto] in H; injection H as <- <- <-.
    2:{ apply SAME; [reflexivity|intros ? ? ?; cbn; auto|intros ? ?; cbn; auto|fnd]. }
    exists found. intros f' A. cbn [manuals] in A. specialize (I f' A). destruct I as [A1 B1 C1 D1 F1]. constructor; cbn [manuals autos].
    + intros n x H. exact (A1 n x H).
    + intros n H. exact (B1 n H).
    + intros n x H. rewrite nth_snoc in H. cbn [holds_auto use_all_of estimator_of is_h]. destruct (Nat.eqb (List.length (autos h)) n).
      * injection H as <-. auto.
      * exact (C1 n x H).
    + intros n H. cbn [holds_auto is_h] in H. rewrite nth_snoc. destruct (Nat.eqb (List.length (autos h)) n); [eauto|]. exact (D1 n H).
    + apply be_found_cons; [exact F1|]. fnd.
  - (* free auto *)
    destruct b as [b|]; cbn [free_auto] in H.
    2:{ injection H as <- <- <-. apply SAME; [reflexivity|intros ? ? ?; cbn; auto|intros ? ?; cbn; auto|fnd]. }
    destruct (lookup (autos h) b) as [m| |] eqn:LB; cbn [bind] in H; try discriminate. injection H as <- <- <-.
    apply lookup_nth in LB. exists found. intros f' A. cbn [manuals] in A. specialize (I f' A). destruct I as [A1 B1 C1 D1 F1]. constructor; cbn [manuals autos].
    + intros n x H. exact (A1 n x H).
    + intros n H. exact (B1 n H).
    + intros n x H. rewrite nth_update in H. cbn [holds_auto use_all_of estimator_of is_h]. destruct (Nat.eqb_spec b n) as [<-|N].
      { rewrite LB in H. discriminate. } cbn [negb andb]. exact (C1 n x H).
    + intros n H. cbn [holds_auto is_h] in H. rewrite nth_update. destruct (Nat.eqb_spec b n) as [E|N]; [discriminate|]. exact (D1 n H).
    + apply be_found_cons; [exact F1|]. fnd.
  - (* set use all *)
    destruct b as [b|]; cbn [set_use_all_decorrelation_modes] in H.
    2:{ injection H as <- <- <-. apply SAME; [reflexivity|intros ? ? ?; cbn; auto|intros ? ?; cbn; auto|fnd]. }
    destruct (lookup (autos h) b) as [m| |] eqn:LB; cbn [bind] in H; try discriminate. injection H as <- <- <-.
    apply lookup_nth in LB. exists found. intros f' A. cbn [manuals snd] in *. specialize (I f' A). destruct I as [A1 B1 C1 D1 F1]. constructor; cbn [manuals autos].
    + intros n x H. exact (A1 n x H).
    + intros n H. exact (B1 n H).
    + intros n x H. rewrite nth_update in H. cbn [holds_auto use_all_of estimator_of is_h]. destruct (Nat.eqb_spec b n) as [<-|N].
      { rewrite LB in H. injection H as <-. destruct (C1 b m LB) as (Q1 & Q2 & Q3). auto. } exact (C1 n x H).
    + intros n H. cbn [holds_auto is_h] in H. rewrite nth_update. destruct (D1 n H) as (x & E). rewrite E. destruct (Nat.eqb b n); eauto.
    + apply be_found_cons; [exact F1|]. fnd.
  - (* auto transform *)
    destruct (be_auto_transform_c k c v b data data_len output output_len cell h st) as [[[[[code o1] cell1] h2] st2]| |] eqn:E; cbn [bind] in H; try discriminate.
    injection H as <- <- <-.
    destruct (be_auto_c_inv _ _ _ _ _ _ _ _ _ _ _ _ _ K E) as [(-> & N)|(s & d & o & -> & -> & -> & -> & -> & ->)].
    + apply SAME; auto.
      * intros f p n. destruct code; try (cbn; auto); congruence.
      * intros p n. destruct code; try (cbn; auto); congruence.
      * intros ? ? ? ? ? ?. right. intros o2 r Q. congruence.
    + exists (fun i => if Nat.eqb i (List.length (manuals h)) then s else found i). intros f' A. cbn [manuals] in A. rewrite app_length in A. cbn [List.length] in A.
      assert (FS : f' (List.length (manuals h)) = s) by (rewrite A by lia; rewrite Nat.eqb_refl; reflexivity).
      specialize (I f'). assert (IF : inv f' past h).
      { apply I. intros i L. rewrite A by lia. replace (Nat.eqb i (List.length (manuals h))) with false; [reflexivity|]. symmetry. apply Nat.eqb_neq. lia. }
      apply be_inv_new; auto.
      * intros p n. cbn. auto.
      * intros b' d' n' o' m' cell' o1 r [Q|Q]; [|exact (i_found _ _ _ IF _ _ _ _ _ _ _ _ Q)]. injection Q as <- <- <- <- <- <- <- <-. rewrite FS. reflexivity.
      * intros i N. cbn. destruct (Nat.eqb_spec (List.length (manuals h)) i); [congruence|]. auto.
      * unfold settings_of. cbn. rewrite Nat.eqb_refl, from_to_internal, FS. destruct s; reflexivity.
Qed.

Lemma be_ran_inv : forall (past : history) (h : heap) st, cpu_ok c -> be_ran k c v past h st -> INV past h.
Proof.
  intros past h st K R. induction R as [st|past h st call a h1 st1 R IH E].
  - exists (fun _ => default_settings). intros f' _. constructor; cbn [manuals autos].
    + intros [|n] m H; discriminate.
    + intros n H. discriminate.
    + intros [|n] m H; discriminate.
    + intros n H. discriminate.
    + intros b d n o m cell o1 r [].
  - apply (be_step_inv past h st call a h1 st1 K); [|exact E]. apply IH.
Qed.

(** ** C34 *)
Lemma be_last_wins : forall (past : history) (h : heap) st, cpu_ok c -> be_ran k c v past h st ->
  exists found, be_found_right k found past /\
    forall n i len o m, holds past n = true -> valid_for i len -> valid_for o m ->
      (exists code, be_manual_transform_c k c (Some i) len (Some o) m (Some n) h = Ok (code, Some
         (if expected_code (codec_block k) len m =? 0 then be_texture_layout k (settings_of found past n) (firstn (Z.to_nat len) i) ++ skipn (Z.to_nat len) o else o)) /\
         code_number code = expected_code (codec_block k) len m) /\
      (exists code o1, be_manual_untransform_c k c (Some i) len (Some o) m (Some n) h = Ok (code, Some o1) /\
         code_number code = expected_code (codec_block k) len m /\ (code <> Success -> o1 = o) /\
         (code = Success -> exists x, zlen x = len /\ be_texture_layout k (settings_of found past n) x = firstn (Z.to_nat len) i /\ o1 = x ++ skipn (Z.to_nat len) o)).
Proof.
  intros past h st K R. destruct (be_ran_inv past h st K R) as (found & I). specialize (I found (fun i _ => eq_refl)).
  exists found. split; [exact (i_found _ _ _ I)|]. intros n i len o m HN VI VO.
  destruct (i_held _ _ _ I n HN) as (mb & E). destruct (i_live _ _ _ I n mb E) as (_ & ->). apply lookup_nth in E.
  split; [exact (be_manual_c_transform k c h i len o m n _ K VI VO E)|exact (be_manual_c_untransform k c h i len o m n _ K VI VO E)].
Qed.

Lemma be_auto_options : forall (past : history) (h : heap) st n, cpu_ok c -> be_ran k c v past h st ->
  holds_auto past n = true -> exists e, estimator_of past n = Some e /\
    forall i len o m cell old st0, valid_for i len -> valid_for o m ->
      exists code o1 cell1 h1 st1 code' s1,
        be_auto_transform_c k c v (Some n) (Some i) len (Some o) m (Some cell) h st0 = Ok (code, Some o1, Some cell1, h1, st1) /\
        be_core_transform_auto_c k c v (Some i) len (Some o) m (Some e) (use_all_of past n) (Some old) st0 = Ok (code', Some o1, Some s1, st1) /\
        (code = Success <-> code' = CoreSuccess) /\
        (code = Success -> exists r, cell1 = Some r /\ forall i2 len2 o2 m2,
           be_manual_untransform_c k c i2 len2 o2 m2 (Some r) h1 = 
           (do x <- be_core_untransform_c k c s1 i2 len2 o2 m2 ;;
            Ok (match fst x with CoreSuccess => Success | CoreNullDataPointer => NullDataPointer | CoreNullOutputBufferPointer => NullOutputBufferPointer
                | CoreInvalidDataLength => CInvalidLength | _ => COutputBufferTooSmall end, snd x))).
Proof.
  intros past h st n K R HN. destruct (be_ran_inv past h st K R) as (found & I). specialize (I found (fun i _ => eq_refl)).
  destruct (i_hauto _ _ _ I n HN) as (ab & E). destruct (i_auto _ _ _ I n ab E) as (_ & U & S). apply lookup_nth in E.
  exists (ca_estimator ab). split; [exact S|]. intros i len o m cell old st0 VI VO. rewrite U.
  unfold be_auto_transform_c, be_core_transform_auto_c. rewrite E, (from_raw_ok _ _ VI), (from_raw_ok _ _ VO). cbn [bind].
  unfold be_auto_transform. cbn [ab_estimator ab_use_all auto_use_all auto_new].
  destruct (be_slices_auto k c v (ca_estimator ab) (ca_use_all ab) i len o m st0 K VI VO) as (r & y & st' & -> & _). cbn [bind].
  destruct r as [s|[w|a d|[|e1]]]; cbn [from_auto_transform_error code_of_error core_code_of_auto bind];
    do 7 eexists; (split; [reflexivity|]); (split; [reflexivity|]); (split; [split; congruence|]); try discriminate.
  intros _. exists (List.length (manuals h)). split; [reflexivity|]. intros i2 len2 o2 m2.
  unfold be_manual_untransform_c, be_core_untransform_c, manual_call, core_call. cbn [manuals].
  destruct i2 as [i2|]; [|reflexivity]. destruct o2 as [o2|]; [|reflexivity].
  destruct (from_raw_parts i2 len2); cbn [bind]; try reflexivity. destruct (from_raw_parts o2 m2); cbn [bind]; try reflexivity.
  unfold lookup. rewrite nth_snoc, Nat.eqb_refl. cbn [bind]. unfold be_manual_untransform.
  unfold manual_decorrelation_mode, manual_split_colour_endpoints. cbn [mb_settings decorrelation_mode split_colour_endpoints].
  rewrite from_to_internal. destruct s as [sm ss]. cbn [decorrelation_mode split_colour_endpoints].
  destruct (be_core_untransform k c (Settings sm ss) a a0) as [[[[]|[]] z]| |]; reflexivity.
Qed.

(** a call leaves alone what it does not touch *)
Lemma be_step_frame : forall (h : heap) st call a h1 st1 n, be_run_c_call k c v call h st = Ok (a, h1, st1) ->
  touches call <> Some n -> (n < List.length (manuals h))%nat -> nth_error (manuals h1) n = nth_error (manuals h) n.
Proof.
  intros h st call a h1 st1 n H T L.
  assert (AP : forall x, nth_error (manuals h ++ [x]) n = nth_error (manuals h) n) by (intros x; apply nth_error_app1; exact L).
  assert (UP : forall b x, Some b <> Some n -> nth_error (update (manuals h) b x) n = nth_error (manuals h) n).
  { intros b x N. rewrite nth_update. destruct (Nat.eqb_spec b n); [congruence|reflexivity]. }
  destruct call; cbn [be_run_c_call touches] in H, T.
  - injection H as <- <- <-. apply AP.
  - destruct b as [b|]; cbn [clone_manual] in H; [|injection H as <- <- <-; reflexivity].
    destruct (lookup (manuals h) b); cbn [bind] in H; try discriminate. injection H as <- <- <-. apply AP.
  - destruct b as [b|]; cbn [free_manual] in H; [|injection H as <- <- <-; reflexivity].
    destruct (lookup (manuals h) b); cbn [bind] in H; try discriminate. injection H as <- <- <-. apply UP; exact T.
  - destruct b as [b|]; unfold set_decorrelation_mode, change_manual in H; [|injection H as <- <- <-; reflexivity].
    destruct (lookup (manuals h) b); cbn [bind] in H; try discriminate. injection H as <- <- <-. apply UP; exact T.
  - destruct b as [b|]; unfold set_split_colour_endpoints, change_manual in H; [|injection H as <- <- <-; reflexivity].
    destruct (lookup (manuals h) b); cbn [bind] in H; try discriminate. injection H as <- <- <-. apply UP; exact T.
  - destruct b as [b|]; unfold reset_to_defaults, change_manual in H; [|injection H as <- <- <-; reflexivity].
    destruct (lookup (manuals h) b); cbn [bind] in H; try discriminate. injection H as <- <- <-. apply UP; exact T.
  - destruct (be_manual_transform_c k c input input_len output output_len b h); cbn [bind] in H; try discriminate. injection H as <- <- <-. reflexivity.
  - destruct (be_manual_untransform_c k c input input_len output output_len b h); cbn [bind] in H; try discriminate. injection H as <- <- <-. reflexivity.
  - destruct e; injection H as <- <- <-; reflexivity.
  - destruct b as [b|]; cbn [free_auto] in H; [|injection H as <- <- <-; reflexivity].
    destruct (lookup (autos h) b); cbn [bind] in H; try discriminate. injection H as <- <- <-. reflexivity.
  - destruct b as [b|]; cbn [set_use_all_decorrelation_modes] in H; [|injection H as <- <- <-; reflexivity].
    destruct (lookup (autos h) b); cbn [bind] in H; try discriminate. injection H as <- <- <-. reflexivity.
  - destruct (be_auto_transform_c k c v b data data_len output output_len cell h st) as [[[[[code o1] cell1] h2] st2]| |] eqn:E; cbn [bind] in H; try discriminate.
    injection H as <- <- <-. unfold be_auto_transform_c in E.
    destruct b as [b|]; [|injection E as <- <- <- <- <-; reflexivity].
    destruct data as [d|]; [|injection E as <- <- <- <- <-; reflexivity].
    destruct output as [o|]; [|injection E as <- <- <- <- <-; reflexivity].
    destruct cell as [cell|]; [|injection E as <- <- <- <- <-; reflexivity].
    destruct (lookup (autos h) b); cbn [bind] in E; try discriminate.
    destruct (from_raw_parts d data_len); cbn [bind] in E; try discriminate.
    destruct (from_raw_parts o output_len); cbn [bind] in E; try discriminate.
    destruct (be_auto_transform _ _ _ _ _ _ _) as [[[[mb|er] y] st3]| |]; cbn [bind] in E; try discriminate; injection E as <- <- <- <- <-; [apply AP|reflexivity].
Qed.
Lemma be_step_frame_auto : forall (h : heap) st call a h1 st1 n, be_run_c_call k c v call h st = Ok (a, h1, st1) ->
  touches_auto call <> Some n -> (n < List.length (autos h))%nat -> nth_error (autos h1) n = nth_error (autos h) n.
Proof.
  intros h st call a h1 st1 n H T L.
  destruct call; cbn [be_run_c_call touches_auto] in H, T.
  - injection H as <- <- <-. reflexivity.
  - destruct b as [b|]; cbn [clone_manual] in H; [|injection H as <- <- <-; reflexivity].
    destruct (lookup (manuals h) b); cbn [bind] in H; try discriminate. injection H as <- <- <-. reflexivity.
  - destruct b as [b|]; cbn [free_manual] in H; [|injection H as <- <- <-; reflexivity].
    destruct (lookup (manuals h) b); cbn [bind] in H; try discriminate. injection H as <- <- <-. reflexivity.
  - destruct b as [b|]; unfold set_decorrelation_mode, change_manual in H; [|injection H as <- <- <-; reflexivity].
    destruct (lookup (manuals h) b); cbn [bind] in H; try discriminate. injection H as <- <- <-. reflexivity.
  - destruct b as [b|]; unfold set_split_colour_endpoints, change_manual in H; [|injection H as <- <- <-; reflexivity].
    destruct (lookup (manuals h) b); cbn [bind] in H; try discriminate. injection H as <- <- <-. reflexivity.
  - destruct b as [b|]; unfold reset_to_defaults, change_manual in H; [|injection H as <- <- <-; reflexivity].
    destruct (lookup (manuals h) b); cbn [bind] in H; try discriminate. injection H as <- <- <-. reflexivity.
  - destruct (be_manual_transform_c k c input input_len output output_len b h); cbn [bind] in H; try discriminate. injection H as <- <- <-. reflexivity.
  - destruct (be_manual_untransform_c k c input input_len output output_len b h); cbn [bind] in H; try discriminate. injection H as <- <- <-. reflexivity.
  - destruct e; injection H as <- <- <-; cbn [autos]; [apply nth_error_app1; exact L|reflexivity].
  - destruct b as [b|]; cbn [free_auto] in H; [|injection H as <- <- <-; reflexivity].
    destruct (lookup (autos h) b); cbn [bind] in H; try discriminate. injection H as <- <- <-. cbn [autos]. rewrite nth_update.
    destruct (Nat.eqb_spec b n); [congruence|reflexivity].
  - destruct b as [b|]; cbn [set_use_all_decorrelation_modes] in H; [|injection H as <- <- <-; reflexivity].
    destruct (lookup (autos h) b); cbn [bind] in H; try discriminate. injection H as <- <- <-. cbn [autos snd]. rewrite nth_update.
    destruct (Nat.eqb_spec b n); [congruence|reflexivity].
  - destruct (be_auto_transform_c k c v b data data_len output output_len cell h st) as [[[[[code o1] cell1] h2] st2]| |] eqn:E; cbn [bind] in H; try discriminate.
    injection H as <- <- <-. unfold be_auto_transform_c in E.
    destruct b as [b|]; [|injection E as <- <- <- <- <-; reflexivity].
    destruct data as [d|]; [|injection E as <- <- <- <- <-; reflexivity].
    destruct output as [o|]; [|injection E as <- <- <- <- <-; reflexivity].
    destruct cell as [cell|]; [|injection E as <- <- <- <- <-; reflexivity].
    destruct (lookup (autos h) b); cbn [bind] in E; try discriminate.
    destruct (from_raw_parts d data_len); cbn [bind] in E; try discriminate.
    destruct (from_raw_parts o output_len); cbn [bind] in E; try discriminate.
    destruct (be_auto_transform _ _ _ _ _ _ _) as [[[[mb|er] y] st3]| |]; cbn [bind] in E; try discriminate; injection E as <- <- <- <- <-; reflexivity.
Qed.

Lemma be_held_bound : forall (past : history) (h : heap) st n, cpu_ok c -> be_ran k c v past h st ->
  holds past n = true -> (n < List.length (manuals h))%nat.
Proof.
  intros past h st n K R HN. destruct (be_ran_inv past h st K R) as (found & I). specialize (I found (fun i _ => eq_refl)).
  destruct (i_held _ _ _ I n HN) as (m & E). apply nth_error_Some. congruence.
Qed.
Lemma be_held_auto_bound : forall (past : history) (h : heap) st n, cpu_ok c -> be_ran k c v past h st ->
  holds_auto past n = true -> (n < List.length (autos h))%nat.
Proof.
  intros past h st n K R HN. destruct (be_ran_inv past h st K R) as (found & I). specialize (I found (fun i _ => eq_refl)).
  destruct (i_hauto _ _ _ I n HN) as (m & E). apply nth_error_Some. congruence.
Qed.

Lemma be_independent : forall (past : history) (h : heap) st call a h1 st1 n, cpu_ok c -> be_ran k c v past h st ->
  be_run_c_call k c v call h st = Ok (a, h1, st1) -> holds past n = true -> touches call <> Some n ->
  forall i len o m, be_manual_transform_c k c i len o m (Some n) h1 = be_manual_transform_c k c i len o m (Some n) h /\
    be_manual_untransform_c k c i len o m (Some n) h1 = be_manual_untransform_c k c i len o m (Some n) h.
Proof.
  intros past h st call a h1 st1 n K R E HN T i len o m.
  pose proof (be_step_frame h st call a h1 st1 n E T (be_held_bound past h st n K R HN)) as F.
  unfold be_manual_transform_c, be_manual_untransform_c, manual_call, lookup. rewrite F. split; reflexivity.
Qed.
Lemma be_independent_auto : forall (past : history) (h : heap) st call a h1 st1 n, cpu_ok c -> be_ran k c v past h st ->
  be_run_c_call k c v call h st = Ok (a, h1, st1) -> holds_auto past n = true -> touches_auto call <> Some n ->
  forall i len o m cell st0, seen_by_caller (be_auto_transform_c k c v (Some n) i len o m cell h1 st0) = seen_by_caller (be_auto_transform_c k c v (Some n) i len o m cell h st0).
Proof.
  intros past h st call a h1 st1 n K R E HN T i len o m cell st0.
  pose proof (be_step_frame_auto h st call a h1 st1 n E T (be_held_auto_bound past h st n K R HN)) as F.
  unfold be_auto_transform_c, lookup. rewrite F.
  destruct i as [i|]; [|reflexivity]. destruct o as [o|]; [|reflexivity]. destruct cell as [cell|]; [|reflexivity].
  destruct (nth_error (autos h) n) as [[ab|]|]; cbn [bind]; try reflexivity.
  destruct (from_raw_parts i len); cbn [bind]; try reflexivity. destruct (from_raw_parts o m); cbn [bind]; try reflexivity.
  destruct (be_auto_transform _ _ _ _ _ _ _) as [[[[mb|er] y] st3]| |]; reflexivity.
Qed.

(** rules kept, nothing goes wrong *)
Lemma be_rules_kept : forall (past : history) (h : heap) st call, cpu_ok c -> be_ran k c v past h st ->
  keeps_rules past call -> exists a h1 st1, be_run_c_call k c v call h st = Ok (a, h1, st1).
Proof.
  intros past h st call K R RU. destruct (be_ran_inv past h st K R) as (found & I). specialize (I found (fun i _ => eq_refl)).
  assert (LM : forall b, holds past b = true -> exists m, lookup (manuals h) b = Ok m).
  { intros b H. destruct (i_held _ _ _ I b H) as (m & E). exists m. apply lookup_nth. exact E. }
  assert (LA : forall b, holds_auto past b = true -> exists m, lookup (autos h) b = Ok m).
  { intros b H. destruct (i_hauto _ _ _ I b H) as (m & E). exists m. apply lookup_nth. exact E. }
  destruct call; cbn [keeps_rules be_run_c_call texture_len] in *.
  - do 3 eexists. reflexivity.
  - destruct b as [b|]; cbn [clone_manual]; [|do 3 eexists; reflexivity]. destruct (LM b RU) as (m & ->). do 3 eexists. reflexivity.
  - destruct b as [b|]; cbn [free_manual]; [|do 3 eexists; reflexivity]. destruct (LM b RU) as (m & ->). do 3 eexists. reflexivity.
  - destruct b as [b|]; unfold set_decorrelation_mode, change_manual; [|do 3 eexists; reflexivity]. destruct (LM b RU) as (m & ->). do 3 eexists. reflexivity.
  - destruct b as [b|]; unfold set_split_colour_endpoints, change_manual; [|do 3 eexists; reflexivity]. destruct (LM b RU) as (m & ->). do 3 eexists. reflexivity.
  - destruct b as [b|]; unfold reset_to_defaults, change_manual; [|do 3 eexists; reflexivity]. destruct (LM b RU) as (m & ->). do 3 eexists. reflexivity.
  - destruct RU as (HB & VI & VO). destruct input as [i|]; [|do 3 eexists; reflexivity]. destruct output as [o|]; [|do 3 eexists; reflexivity].
    destruct b as [b|]; [|do 3 eexists; reflexivity]. destruct (LM b HB) as (m & E).
    destruct (be_manual_c_transform k c h i input_len o output_len b m K VI VO E) as (code & -> & _). do 3 eexists. reflexivity.
  - destruct RU as (HB & VI & VO). destruct input as [i|]; [|do 3 eexists; reflexivity]. destruct output as [o|]; [|do 3 eexists; reflexivity].
    destruct b as [b|]; [|do 3 eexists; reflexivity]. destruct (LM b HB) as (m & E).
    destruct (be_manual_c_untransform k c h i input_len o output_len b m K VI VO E) as (code & o1 & -> & _). do 3 eexists. reflexivity.
  - destruct e; do 3 eexists; reflexivity.
  - destruct b as [b|]; cbn [free_auto]; [|do 3 eexists; reflexivity]. destruct (LA b RU) as (m & ->). do 3 eexists. reflexivity.
  - destruct b as [b|]; cbn [set_use_all_decorrelation_modes]; [|do 3 eexists; reflexivity]. destruct (LA b RU) as (m & ->). do 3 eexists. reflexivity.
  - destruct RU as (HB & VI & VO). destruct b as [b|]; [|do 3 eexists; reflexivity]. destruct data as [d|]; [|do 3 eexists; reflexivity].
    destruct output as [o|]; [|do 3 eexists; reflexivity]. destruct cell as [cell|]; [|do 3 eexists; reflexivity]. destruct (LA b HB) as (ab & E).
    destruct (be_auto_c_transform k c v h d data_len o output_len b ab cell st K VI VO E) as (code & o1 & cell1 & h1 & st1 & -> & _).
    do 3 eexists. reflexivity.
Qed.

(** what the calls that make and change builders answer *)
Lemma be_calls_succeed : forall (past : history) (h : heap) st, cpu_ok c -> be_ran k c v past h st ->
  (exists n h1, be_run_c_call k c v CNew h st = Ok (GaveHandle (Some n), h1, st) /\ holds past n = false) /\
  (forall b, holds past b = true -> exists n h1, be_run_c_call k c v (CClone (Some b)) h st = Ok (GaveHandle (Some n), h1, st) /\ holds past n = false) /\
  (forall e, exists n h1, be_run_c_call k c v (CNewAuto (Some e)) h st = Ok (GaveHandle (Some n), h1, st) /\ holds_auto past n = false) /\
  (forall b all, holds_auto past b = true -> exists code h1, be_run_c_call k c v (CSetUseAll (Some b) all) h st = Ok (GaveCode code, h1, st) /\ code_number code = 0).
Proof.
  intros past h st K R. destruct (be_ran_inv past h st K R) as (found & I). specialize (I found (fun i _ => eq_refl)).
  assert (F : holds past (List.length (manuals h)) = false).
  { destruct (holds past (List.length (manuals h))) eqn:Q; [|reflexivity]. destruct (i_held _ _ _ I _ Q) as (m & W).
    assert (N : nth_error (manuals h) (List.length (manuals h)) <> None) by congruence. apply nth_error_Some in N. lia. }
  assert (G : holds_auto past (List.length (autos h)) = false).
  { destruct (holds_auto past (List.length (autos h))) eqn:Q; [|reflexivity]. destruct (i_hauto _ _ _ I _ Q) as (m & W).
    assert (N : nth_error (autos h) (List.length (autos h)) <> None) by congruence. apply nth_error_Some in N. lia. }
  split; [do 2 eexists; split; [reflexivity|exact F]|]. split.
  { intros b H. destruct (i_held _ _ _ I b H) as (m & E). apply lookup_nth in E. cbn [be_run_c_call clone_manual]. rewrite E. do 2 eexists. split; [reflexivity|exact F]. }
  split; [intros e; do 2 eexists; split; [reflexivity|exact G]|].
  intros b all H. destruct (i_hauto _ _ _ I b H) as (m & E). apply lookup_nth in E. cbn [be_run_c_call set_use_all_decorrelation_modes]. rewrite E. do 2 eexists. split; reflexivity.
Qed.

(** new handles are new *)
Lemma be_fresh_handles : forall (past : history) (h : heap) st call a h1 st1 n, cpu_ok c -> be_ran k c v past h st ->
  be_run_c_call k c v call h st = Ok (a, h1, st1) -> new_handle call a = Some n -> holds past n = false /\ holds ((call, a) :: past) n = true.
Proof.
  intros past h st call a h1 st1 n K R E HN.
  destruct (be_ran_inv past h st K R) as (found & I). specialize (I found (fun i _ => eq_refl)).
  assert (F : holds past (List.length (manuals h)) = false).
  { destruct (holds past (List.length (manuals h))) eqn:Q; [|reflexivity]. destruct (i_held _ _ _ I _ Q) as (m & W).
    assert (N : nth_error (manuals h) (List.length (manuals h)) <> None) by congruence. apply nth_error_Some in N. lia. }
  destruct call; cbn [be_run_c_call] in E; try discriminate.
  - injection E as <- <- <-. injection HN as <-. split; [exact F|]. cbn. rewrite Nat.eqb_refl. reflexivity.
  - destruct b as [b|]; cbn [clone_manual] in E; [|injection E as <- <- <-; discriminate].
    destruct (lookup (manuals h) b); cbn [bind] in E; try discriminate. injection E as <- <- <-. injection HN as <-.
    split; [exact F|]. cbn. rewrite Nat.eqb_refl. reflexivity.
  - destruct (be_auto_transform_c k c v b data data_len output output_len cell h st) as [[[[[code o1] cell1] h2] st2]| |] eqn:Q; cbn [bind] in E; try discriminate.
    injection E as <- <- <-.
    destruct (be_auto_c_inv _ _ _ _ _ _ _ _ _ _ _ _ _ K Q) as [(-> & N)|(s & d & o & -> & -> & -> & -> & -> & ->)].
    + destruct code; cbn in HN; congruence.
    + cbn in HN. injection HN as <-. split; [exact F|]. cbn. rewrite Nat.eqb_refl. reflexivity.
Qed.
End History.
