(** Facts about the analyze-formats command. *)
From Verif Require Import Base.Bytes Base.Res Model.Kernel Model.Transform Model.Auto Model.Embed Model.Bundle Model.Dds Model.Handlers Model.Cli Model.Inspect
  Model.FormatAnalysis Spec.Dds Spec.FormatAnalysis Proofs.DdsFacts Proofs.DdsHandler Proofs.DdsMore Proofs.InspectFacts Proofs.InspectFiles.
From Coq Require Import String Permutation Sorted ZifyBool ZifyNat.
Open Scope list_scope.
Open Scope Z_scope.

Definition all_keys : list format_key := [KUnknown; KBc1; KBc2; KBc3; KBc7; KBc6H; KRgba8888; KBgra8888; KBgr888; KBc4; KBc5].
Lemma all_keys_all : forall k, In k all_keys.
Proof. intros []; cbn; tauto. Qed.
Lemma key_number_inj : forall a b, key_number a = key_number b -> a = b.
Proof. intros [] []; cbn; intros H; first [reflexivity|discriminate H]. Qed.
Definition key_eqb (a b : format_key) : bool := key_number a =? key_number b.
Lemma key_eqb_eq : forall a b, key_eqb a b = true <-> a = b.
Proof. intros a b. unfold key_eqb. split; [intros H; apply key_number_inj; lia|intros ->; apply Z.eqb_refl]. Qed.

(** Sums of [u64], as they come out: release builds wrap around. *)
Definition wrap (debug : bool) (n : Z) : Z := if debug then n else n mod 2 ^ 64.
Lemma wrap_wrap : forall debug a b, wrap debug (wrap debug a + b) = wrap debug (a + b).
Proof. intros [] a b; cbn [wrap]; [reflexivity|]. apply Zplus_mod_idemp_l. Qed.
Lemma wrap_wrap_r : forall debug a b, wrap debug (a + wrap debug b) = wrap debug (a + b).
Proof. intros debug a b. rewrite Z.add_comm, wrap_wrap, Z.add_comm. reflexivity. Qed.
Lemma wrap_nonneg : forall debug a, 0 <= a -> 0 <= wrap debug a.
Proof. intros [] a H; cbn [wrap]; [exact H|]. apply Z.mod_pos_bound. reflexivity. Qed.
Lemma wrap_small : forall debug a, 0 <= a < 2 ^ 64 -> wrap debug a = a.
Proof. intros [] a H; cbn [wrap]; [reflexivity|]. apply Z.mod_small. exact H. Qed.
Lemma add_u64_spec : forall debug a b, 0 <= a -> 0 <= b ->
  add_u64 debug a b = Ok (wrap debug (a + b)) \/ (debug = true /\ 2 ^ 64 <= a + b /\ exists why, add_u64 debug a b = Panic why).
Proof.
  intros debug a b Ha Hb. unfold add_u64. destruct (a + b <? 2 ^ 64) eqn:E.
  - left. rewrite wrap_small by lia. reflexivity.
  - destruct debug; [right|left; reflexivity]. split; [reflexivity|]. split; [lia|]. eexists. reflexivity.
Qed.

Section Facts.
Variable debug : bool.
Variable detected : components -> option transform_format.
Variable size : components -> Z.
Definition key_of (p : components) : format_key := format_key_from (detected p).
Definition of_key (k : format_key) (l : list components) : list components := filter (fun p => key_eqb (key_of p) k) l.

(** The statistics after some files. *)
Definition row (k : format_key) (l : list components) : format_key * format_stats := (k, FormatStats (zlen (of_key k l)) (wrap debug (sum_sizes size (of_key k l)))).
Definition describes (m : stats_map) (l : list components) : Prop :=
  NoDup (map fst m) /\ forall x, In x m <-> of_key (fst x) l <> [] /\ x = row (fst x) l.

Lemma of_key_snoc : forall k l p, of_key k (l ++ [p]) = of_key k l ++ (if key_eqb (key_of p) k then [p] else []).
Proof. intros k l p. unfold of_key. rewrite filter_app. cbn [filter]. destruct (key_eqb (key_of p) k); reflexivity. Qed.
Lemma sum_app : forall a b, sum_sizes size (a ++ b) = sum_sizes size a + sum_sizes size b.
Proof. intros a b. unfold sum_sizes. rewrite map_app, fold_right_app. induction (map size a) as [|x l IH]; cbn [fold_right]; [lia|]. rewrite IH. lia. Qed.
Lemma sum_filter : forall (p : components -> bool) l, (forall x, In x l -> 0 <= size x) -> 0 <= sum_sizes size (filter p l) <= sum_sizes size l.
Proof.
  intros p l. induction l as [|x l IH]; intros H; [cbn; lia|]. specialize (IH (fun y Hy => H y (or_intror Hy))). pose proof (H x (or_introl eq_refl)) as Hx.
  cbn [filter]. unfold sum_sizes in *. destruct (p x); cbn [map fold_right]; lia.
Qed.
Lemma row_same : forall k l p, key_of p <> k -> row k (l ++ [p]) = row k l.
Proof.
  intros k l p H. unfold row. rewrite of_key_snoc. destruct (key_eqb (key_of p) k) eqn:E; [apply key_eqb_eq in E; contradiction|]. rewrite app_nil_r. reflexivity.
Qed.
Lemma row_added : forall k l p, key_of p = k -> row k (l ++ [p]) = (k, FormatStats (zlen (of_key k l) + 1) (wrap debug (sum_sizes size (of_key k l) + size p))).
Proof.
  intros k l p H. unfold row. rewrite of_key_snoc. replace (key_eqb (key_of p) k) with true by (symmetry; apply key_eqb_eq; exact H).
  rewrite sum_app. unfold zlen. rewrite app_length. f_equal. f_equal; [cbn [List.length]; lia|]. apply (f_equal (wrap debug)). unfold sum_sizes at 2. cbn [map fold_right]. lia.
Qed.
Lemma of_key_other : forall k l p, key_of p <> k -> of_key k (l ++ [p]) = of_key k l.
Proof. intros k l p H. rewrite of_key_snoc. destruct (key_eqb (key_of p) k) eqn:E; [apply key_eqb_eq in E; contradiction|]. apply app_nil_r. Qed.
Lemma of_key_there : forall l p, of_key (key_of p) (l ++ [p]) <> [].
Proof. intros l p. rewrite of_key_snoc. replace (key_eqb (key_of p) (key_of p)) with true by (symmetry; apply key_eqb_eq; reflexivity). destruct (of_key (key_of p) l); discriminate. Qed.

(** Adding one file. *)
Lemma add_found : forall k n m, NoDup (map fst m) -> 0 <= n -> (forall s, In (k, s) m -> 0 <= total_size s) ->
  (debug = true /\ (2 ^ 64 <= n \/ exists s, In (k, s) m /\ 2 ^ 64 <= total_size s + n) /\ exists why, stats_add debug m k n = Panic why) \/
  exists m', stats_add debug m k n = Ok m' /\ NoDup (map fst m') /\
    (forall x, In x (map fst m') <-> In x (map fst m) \/ x = k) /\
    (forall k' s', k' <> k -> (In (k', s') m' <-> In (k', s') m)) /\
    (forall s', In (k, s') m' <-> (exists s, In (k, s) m /\ s' = FormatStats (count s + 1) (wrap debug (total_size s + n))) \/ (~ In k (map fst m) /\ s' = FormatStats 1 (wrap debug n))).
Proof.
  intros k n m. induction m as [|[k1 s1] m IH]; intros ND Hn HS.
  - cbn [stats_add]. destruct (add_u64_spec debug 0 n (Z.le_refl 0) Hn) as [E|(D & B & (why & E))].
    2:{ left. split; [exact D|]. split; [left; exact B|]. exists why. rewrite E. reflexivity. }
    right. rewrite E. cbn [bind]. rewrite Z.add_0_l. eexists. split; [reflexivity|].
    split; [constructor; [intros []|constructor]|]. split; [intros x; cbn; intuition|]. split.
    + intros k' s' N. cbn. intuition congruence.
    + intros s'. cbn. split; [intros [X|[]]; injection X as <-; right; auto|intros [(s & [] & _)|(_ & ->)]; auto].
  - cbn [stats_add]. cbn [map fst] in ND. apply NoDup_cons_iff in ND as (N1 & ND). destruct (key_number k =? key_number k1) eqn:E.
    + assert (k1 = k) by (symmetry; apply key_number_inj; lia). subst k1.
      destruct (add_u64_spec debug (total_size s1) n (HS s1 (or_introl eq_refl)) Hn) as [EA|(D & B & (why & EA))].
      2:{ left. split; [exact D|]. split; [right; exists s1; split; [left; reflexivity|exact B]|]. exists why. rewrite EA. reflexivity. }
      right. rewrite EA. cbn [bind].
      eexists. split; [reflexivity|]. cbn [map fst]. split; [constructor; assumption|]. split; [intros x; cbn; intuition|]. split.
      * intros k' s' N. cbn. intuition congruence.
      * intros s'. cbn [In]. split.
        { intros [X|X]; [injection X as <-; left; exists s1; auto|]. exfalso. apply N1. apply (in_map fst) in X. exact X. }
        { intros [(s & [X|X] & ->)|(X & _)]; [injection X as <-; left; reflexivity| |exfalso; apply X; left; reflexivity].
          exfalso. apply N1. apply (in_map fst) in X. exact X. }
    + assert (NK : k1 <> k) by (intros ->; lia).
      destruct (IH ND Hn (fun s Hs => HS s (or_intror Hs))) as [(D & B & (why & E'))|(m' & E' & ND' & A & B & C)].
      { left. split; [exact D|]. split; [destruct B as [B|(s & B1 & B2)]; [left; exact B|right; exists s; split; [right; exact B1|exact B2]]|].
        exists why. rewrite E'. reflexivity. }
      right. rewrite E'. cbn [bind]. eexists. split; [reflexivity|].
      cbn [map fst]. split; [constructor; [|exact ND']; intros X; apply A in X as [X|X]; [contradiction|congruence]|].
      split; [intros x; cbn [In]; rewrite A; tauto|]. split.
      * intros k' s' N. cbn [In]. rewrite (B k' s' N). tauto.
      * intros s'. cbn [In]. rewrite C. split.
        { intros [X|[(s & X & ->)|(X & ->)]]; [injection X as -> ->; contradiction|left; exists s; auto|].
          right. split; [|reflexivity]. intros [Y|Y]; [contradiction|exact (X Y)]. }
        { intros [(s & [X|X] & ->)|(X & ->)]; [injection X as -> ->; contradiction|right; left; exists s; auto|].
          right. right. split; [|reflexivity]. intros Y. apply X. right. exact Y. }
Qed.

Lemma add_describes : forall m l p, (forall x, In x (l ++ [p]) -> 0 <= size x) ->
  describes m l ->
  (debug = true /\ 2 ^ 64 <= sum_sizes size (l ++ [p]) /\ exists why, stats_add debug m (key_of p) (size p) = Panic why) \/
  exists m', stats_add debug m (key_of p) (size p) = Ok m' /\ describes m' (l ++ [p]).
Proof.
  intros m l p HS (ND & D).
  assert (HP : 0 <= size p) by (apply HS; apply in_or_app; right; left; reflexivity).
  assert (HL : forall x, In x l -> 0 <= size x) by (intros x Hx; apply HS; apply in_or_app; left; exact Hx).
  assert (ST : sum_sizes size (l ++ [p]) = sum_sizes size l + size p) by (rewrite sum_app; unfold sum_sizes at 2; cbn [map fold_right]; lia).
  clear HS. pose proof (sum_filter (fun x => key_eqb (key_of x) (key_of p)) l HL) as HF.
  assert (HM : forall s, In (key_of p, s) m -> total_size s = wrap debug (sum_sizes size (of_key (key_of p) l))).
  { intros s Hs. apply D in Hs as (_ & Hs). cbn [fst] in Hs. unfold row in Hs. injection Hs as ->. reflexivity. }
  destruct (add_found (key_of p) (size p) m ND HP) as [(DB & B & W)|(m' & E & ND' & A & B & C)].
  { intros s Hs. rewrite (HM s Hs). apply wrap_nonneg. unfold of_key. lia. }
  { left. split; [exact DB|]. split; [|exact W]. rewrite ST. destruct B as [B|(s & B1 & B2)]; [lia|].
    rewrite (HM s B1), DB in B2. cbn [wrap] in B2. unfold of_key in B2. lia. }
  right. exists m'. split; [exact E|]. split; [exact ND'|]. intros [k s]. cbn [fst].
  destruct (key_eqb (key_of p) k) eqn:EK.
  - apply key_eqb_eq in EK. subst k. rewrite C. rewrite row_added by reflexivity. split.
    + intros X. split; [apply of_key_there|]. destruct X as [(s0 & X & ->)|(X & ->)].
      * pose proof (HM s0 X) as T. apply D in X as (_ & X). cbn [fst] in X. unfold row in X. injection X as ->. cbn [count total_size]. rewrite wrap_wrap. reflexivity.
      * assert (Z0 : of_key (key_of p) l = []).
        { destruct (of_key (key_of p) l) eqn:EE; [reflexivity|]. exfalso. apply X.
          assert (In (row (key_of p) l) m) by (apply D; cbn [row fst]; split; [rewrite EE; discriminate|reflexivity]).
          apply (in_map fst) in H. exact H. }
        rewrite Z0. cbn. reflexivity.
    + intros (_ & X). injection X as ->. destruct (of_key (key_of p) l) eqn:EE.
      * right. split; [|reflexivity]. intros X. apply in_map_iff in X as ([k0 s0] & X1 & X2). cbn [fst] in X1. subst k0. apply D in X2 as (X2 & _). cbn [fst] in X2. rewrite EE in X2. apply X2. reflexivity.
      * left. exists (snd (row (key_of p) l)). rewrite <- EE. split; [|cbn [row snd count total_size]; rewrite wrap_wrap; reflexivity].
        change (In (row (key_of p) l) m). apply D. cbn [row fst]. split; [rewrite EE; discriminate|reflexivity].
  - assert (N : key_of p <> k) by (intros X; apply key_eqb_eq in X; congruence).
    rewrite (B k s (not_eq_sym N)), D. cbn [fst]. rewrite of_key_other, row_same by exact N. reflexivity.
Qed.

(** Sorting. *)
Definition key_lt (a b : format_key * format_stats) : Prop := key_number (fst a) < key_number (fst b).
Lemma insert_perm : forall x l, Permutation (x :: l) (insert_sorted x l).
Proof.
  intros x l. induction l as [|y l IH]; [reflexivity|]. cbn [insert_sorted]. destruct (_ <=? _); [reflexivity|].
  rewrite perm_swap. constructor. exact IH.
Qed.
Lemma sort_perm : forall l, Permutation l (sort_by_key l).
Proof. intros l. induction l as [|x l IH]; [constructor|]. cbn [sort_by_key fold_right]. rewrite IH at 1. apply insert_perm. Qed.
Lemma insert_sorted_ok : forall x l, StronglySorted key_lt l -> ~ In (fst x) (map fst l) -> StronglySorted key_lt (insert_sorted x l).
Proof.
  intros x l. induction l as [|y l IH]; intros S N; cbn [insert_sorted]; [constructor; constructor|].
  apply StronglySorted_inv in S as (S & F). destruct (key_number (fst x) <=? key_number (fst y)) eqn:E.
  - assert (XY : key_lt x y). { unfold key_lt. enough (key_number (fst x) <> key_number (fst y)) by lia. intros X. apply key_number_inj in X. apply N. left. auto. }
    constructor; [constructor; assumption|]. constructor; [exact XY|]. rewrite Forall_forall in *. intros z Hz. specialize (F z Hz). unfold key_lt in *. lia.
  - constructor; [apply IH; [exact S|intros X; apply N; right; exact X]|].
    rewrite Forall_forall in *. intros z Hz. apply (Permutation_in _ (Permutation_sym (insert_perm x l))) in Hz as [<-|Hz]; [unfold key_lt; lia|apply F; exact Hz].
Qed.
Lemma sort_sorted : forall l, NoDup (map fst l) -> StronglySorted key_lt (sort_by_key l).
Proof.
  intros l. induction l as [|x l IH]; intros N; [constructor|]. cbn [map] in N. apply NoDup_cons_iff in N as (N1 & N). cbn [sort_by_key fold_right].
  apply insert_sorted_ok; [apply IH; exact N|]. intros X. apply N1. apply (Permutation_in _ (Permutation_map fst (Permutation_sym (sort_perm l)))). exact X.
Qed.
Lemma sorted_unique : forall a b, StronglySorted key_lt a -> StronglySorted key_lt b -> (forall x, In x a <-> In x b) -> a = b.
Proof.
  intros a. induction a as [|x a IH]; intros b SA SB H.
  - destruct b as [|y b]; [reflexivity|]. exfalso. apply (proj2 (H y)). left. reflexivity.
  - destruct b as [|y b]; [exfalso; apply (proj1 (H x)); left; reflexivity|].
    apply StronglySorted_inv in SA as (SA & FA). apply StronglySorted_inv in SB as (SB & FB). rewrite Forall_forall in FA, FB.
    assert (x = y).
    { destruct (proj1 (H x) (or_introl eq_refl)) as [X|X]; [auto|]. destruct (proj2 (H y) (or_introl eq_refl)) as [Y|Y]; [auto|].
      apply FB in X. apply FA in Y. unfold key_lt in *. lia. }
    subst y. f_equal. apply IH; try assumption. intros z. split; intros Z0.
    + destruct (proj1 (H z) (or_intror Z0)) as [X|X]; [|exact X]. subst z. apply FA in Z0. unfold key_lt in Z0. lia.
    + destruct (proj2 (H z) (or_intror Z0)) as [X|X]; [|exact X]. subst z. apply FB in Z0. unfold key_lt in Z0. lia.
Qed.

(** The expected rows. *)
Definition rows_from (ks : list format_key) (l : list components) : stats_map :=
  flat_map (fun k => match of_key k l with [] => [] | _ => [row k l] end) ks.
Lemma rows_in : forall ks l x, In x (rows_from ks l) <-> In (fst x) ks /\ of_key (fst x) l <> [] /\ x = row (fst x) l.
Proof.
  intros ks l x. unfold rows_from. rewrite in_flat_map. split.
  - intros (k & Hk & Hx). destruct (of_key k l) eqn:E; [destruct Hx|]. destruct Hx as [<-|[]]. cbn [row fst]. rewrite E. split; [exact Hk|]. split; [discriminate|]. unfold row. rewrite E. reflexivity.
  - intros (Hk & N & ->). cbn [row fst]. exists (fst x). split; [exact Hk|]. destruct (of_key (fst x) l); [contradiction|]. left. reflexivity.
Qed.
Lemma rows_sorted : forall ks l, StronglySorted (fun a b => key_number a < key_number b) ks -> StronglySorted key_lt (rows_from ks l).
Proof.
  intros ks l. induction ks as [|k ks IH]; intros S; [constructor|]. apply StronglySorted_inv in S as (S & F). specialize (IH S).
  unfold rows_from. cbn [flat_map]. fold (rows_from ks l). destruct (of_key k l); [exact IH|]. cbn [app]. constructor; [exact IH|].
  rewrite Forall_forall in *. intros x Hx. apply rows_in in Hx as (Hx & _). exact (F _ Hx).
Qed.
Lemma all_keys_sorted : StronglySorted (fun a b => key_number a < key_number b) all_keys.
Proof. repeat (constructor; [|repeat (constructor; [reflexivity|]); constructor]). constructor. Qed.
Lemma sorted_rows : forall m l order, describes m l -> Permutation (order m) m -> sort_by_key (order m) = rows_from all_keys l.
Proof.
  intros m l order (ND & D) P. apply sorted_unique.
  - apply sort_sorted. apply (Permutation_NoDup (Permutation_map fst (Permutation_sym P))). exact ND.
  - apply rows_sorted. exact all_keys_sorted.
  - intros x. rewrite rows_in. split.
    + intros H. split; [apply all_keys_all|]. apply D. apply (Permutation_in _ P). apply (Permutation_in _ (Permutation_sym (sort_perm _))). exact H.
    + intros (_ & H). apply (Permutation_in _ (sort_perm _)). apply (Permutation_in _ (Permutation_sym P)). apply D. exact H.
Qed.

(** Adding up sizes. *)
Definition add_up (l : list Z) : Z := fold_right Z.add 0 l.
Lemma add_up_perm : forall a b, Permutation a b -> add_up a = add_up b.
Proof. intros a b H. induction H; cbn [add_up fold_right] in *; unfold add_up in *; lia. Qed.
Lemma add_up_nonneg : forall l, Forall (fun n => 0 <= n) l -> 0 <= add_up l.
Proof. intros l H. induction H; cbn; unfold add_up in *; lia. Qed.
Lemma sum_u64_ok : forall l acc, 0 <= acc -> Forall (fun n => 0 <= n) l -> wrap debug acc = acc ->
  (debug = true -> acc < 2 ^ 64) ->
  (sum_u64 debug l acc = Ok (wrap debug (acc + add_up l)) /\ (debug = true -> acc + add_up l < 2 ^ 64)) \/ (debug = true /\ 2 ^ 64 <= acc + add_up l /\ exists why, sum_u64 debug l acc = Panic why).
Proof.
  intros l. induction l as [|n l IH]; intros acc HA HF HW HB.
  { left. cbn [sum_u64 add_up fold_right]. rewrite Z.add_0_r, HW. split; [reflexivity|exact HB]. }
  apply Forall_cons_iff in HF as (Hn & HF). pose proof (add_up_nonneg l HF) as HN.
  change (add_up (n :: l)) with (n + add_up l). cbn [sum_u64].
  destruct (add_u64_spec debug acc n HA Hn) as [E|(D & B & (why & E))].
  - assert (HB1 : debug = true -> wrap debug (acc + n) < 2 ^ 64).
    { intros D. rewrite D in *. cbn [wrap]. unfold add_u64 in E. destruct (acc + n <? 2 ^ 64) eqn:EL; [lia|discriminate E]. }
    rewrite E. cbn [bind]. assert (W : 0 <= wrap debug (acc + n)) by (apply wrap_nonneg; lia).
    assert (WW : wrap debug (wrap debug (acc + n)) = wrap debug (acc + n)) by (rewrite <- (Z.add_0_r (wrap debug (acc + n))) at 1; rewrite wrap_wrap, Z.add_0_r; reflexivity).
    destruct (IH _ W HF WW HB1) as [(E1 & B)|(D & B & E1)].
    + left. split; [rewrite E1, wrap_wrap; f_equal; f_equal; lia|]. intros D. specialize (B D). rewrite D in B. cbn [wrap] in B. lia.
    + right. split; [exact D|]. split; [|exact E1]. rewrite D in B. cbn [wrap] in B. lia.
  - right. split; [exact D|]. split; [lia|]. exists why. rewrite E. reflexivity.
Qed.
Lemma wrap_0 : wrap debug 0 = 0.
Proof. apply wrap_small. split; [lia|reflexivity]. Qed.
Lemma rows_total_keys : forall ks l, wrap debug (add_up (map (fun x => total_size (snd x)) (rows_from ks l))) = wrap debug (add_up (map (fun k => sum_sizes size (of_key k l)) ks)).
Proof.
  intros ks l. induction ks as [|k ks IH]; [reflexivity|]. unfold rows_from. cbn [flat_map]. fold (rows_from ks l). cbn [map].
  change (add_up (sum_sizes size (of_key k l) :: map (fun k => sum_sizes size (of_key k l)) ks)) with (sum_sizes size (of_key k l) + add_up (map (fun k => sum_sizes size (of_key k l)) ks)).
  rewrite <- wrap_wrap_r, <- IH, wrap_wrap_r. destruct (of_key k l) eqn:E; [cbn [app]; unfold sum_sizes; cbn [map fold_right]; rewrite Z.add_0_l; reflexivity|]. rewrite <- E. cbn [app map row snd total_size].
  change (add_up (wrap debug (sum_sizes size (of_key k l)) :: map (fun x => total_size (snd x)) (rows_from ks l))) with (wrap debug (sum_sizes size (of_key k l)) + add_up (map (fun x => total_size (snd x)) (rows_from ks l))).
  apply wrap_wrap.
Qed.
Lemma keys_total : forall ks, NoDup ks -> forall l, (forall p, In p l -> In (key_of p) ks) -> add_up (map (fun k => sum_sizes size (of_key k l)) ks) = sum_sizes size l.
Proof.
  intros ks ND l. induction l as [|p l IH]; intros H.
  - cbn. clear. induction ks as [|k ks IH]; [reflexivity|]. cbn in *. exact IH.
  - specialize (IH (fun q Hq => H q (or_intror Hq))). specialize (H p (or_introl eq_refl)).
    change (sum_sizes size (p :: l)) with (size p + sum_sizes size l). rewrite <- IH. clear IH. revert ND H. induction ks as [|k ks IH]; intros ND H; [destruct H|].
    apply NoDup_cons_iff in ND as (NK & ND). cbn [map add_up fold_right]. change (fold_right Z.add 0) with add_up. unfold of_key at 1. cbn [filter]. fold (of_key k l).
    destruct (key_eqb (key_of p) k) eqn:E.
    + apply key_eqb_eq in E. change (sum_sizes size (p :: of_key k l)) with (size p + sum_sizes size (of_key k l)).
      enough (add_up (map (fun k => sum_sizes size (of_key k (p :: l))) ks) = add_up (map (fun k => sum_sizes size (of_key k l)) ks)) by lia.
      f_equal. apply map_ext_in. intros k' Hk'. unfold of_key. cbn [filter]. destruct (key_eqb (key_of p) k') eqn:E'; [|reflexivity]. apply key_eqb_eq in E'. congruence.
    + destruct H as [H|H]; [exfalso; symmetry in H; apply key_eqb_eq in H; congruence|]. rewrite (IH ND H). lia.
Qed.
Lemma all_keys_nodup : NoDup all_keys.
Proof. unfold all_keys. repeat (constructor; [cbn; intuition discriminate|]). constructor. Qed.
Lemma rows_total : forall l, wrap debug (add_up (map (fun x => total_size (snd x)) (rows_from all_keys l))) = wrap debug (sum_sizes size l).
Proof. intros l. rewrite rows_total_keys. f_equal. apply keys_total; [exact all_keys_nodup|intros p _; apply all_keys_all]. Qed.
Lemma describes_total : forall m l, describes m l -> wrap debug (add_up (map (fun x => total_size (snd x)) m)) = wrap debug (sum_sizes size l).
Proof.
  intros m l D. rewrite <- rows_total, <- (sorted_rows m l (fun x => x) D (Permutation_refl _)). f_equal. apply add_up_perm. apply Permutation_map. apply sort_perm.
Qed.

Lemma key_kind : forall p f, key_eqb (key_of p) (format_key_from f) = if format_eq_dec (detected p) f then true else false.
Proof.
  intros p f. unfold key_of, key_eqb. destruct (format_eq_dec (detected p) f) as [->|N]; [apply Z.eqb_refl|].
  destruct (detected p) as [[]|], f as [[]|]; first [reflexivity|exfalso; apply N; reflexivity].
Qed.
Lemma of_key_files : forall f l, of_key (format_key_from f) l = files_of detected f l.
Proof. intros f l. unfold of_key, files_of. apply filter_ext. intros p. apply key_kind. Qed.
Lemma lines_expected : forall l,
  map (fun x => (display_name (fst x), count (snd x), total_size (snd x))) (rows_from all_keys l) = map (fun x => (fst x, wrap debug (snd x))) (expected_lines detected size l).
Proof.
  intros l. unfold expected_lines, rows_from. change all_keys with (map (fun k => format_key_from (fst k)) kinds).
  assert (N : Forall (fun k => display_name (format_key_from (fst k)) = snd k) kinds) by (repeat (constructor; [reflexivity|]); constructor).
  revert N. generalize kinds. intros ks N. induction N as [|k ks Hk N IH]; [reflexivity|]. cbn [map flat_map]. rewrite !map_app, IH. f_equal.
  rewrite of_key_files. destruct (files_of detected (fst k) l) eqn:E; [reflexivity|]. cbn [map row fst snd count total_size]. rewrite of_key_files, E, Hk. reflexivity.
Qed.
Lemma describes_nil : describes [] [].
Proof. split; [constructor|]. intros x. cbn. split; [intros []|intros (H & _); apply H; reflexivity]. Qed.

Section Command.
Variable inspectors : list inspector.
Variable utf8 : string -> bool.
Variable o : io.
Variable fs : files.
Variable file_size : components -> option Z.
Hypothesis HSZ : forall p, size p = match file_size p with Some n => n | None => 0 end.

Lemma sum_nonneg : forall l, (forall x, In x l -> 0 <= size x) -> 0 <= sum_sizes size l.
Proof.
  intros l P. induction l as [|y l IH]; [cbn; lia|]. specialize (IH (fun x Hx => P x (or_intror Hx))). specialize (P y (or_introl eq_refl)). unfold sum_sizes in *. cbn. lia.
Qed.
Lemma analyze_eq : forall entries l m n,
  (forall p, In p entries -> detect_file_format inspectors utf8 o fs p = Ok (detected p)) ->
  (forall x, In x (l ++ entries) -> 0 <= size x) -> describes m l ->
  (debug = true /\ 2 ^ 64 <= sum_sizes size (l ++ entries) /\ exists why, analyze_files debug inspectors utf8 o fs file_size entries m n = Panic why) \/
  exists m', analyze_files debug inspectors utf8 o fs file_size entries m n = Ok (m', n + zlen entries) /\ describes m' (l ++ entries).
Proof.
  intros entries. induction entries as [|p entries IH]; intros l m n HD HS D.
  - right. exists m. cbn [analyze_files]. rewrite app_nil_r. split; [f_equal; f_equal; unfold zlen; cbn; lia|exact D].
  - cbn [analyze_files]. rewrite (HD p (or_introl eq_refl)). cbn [bind]. fold (key_of p). rewrite <- HSZ.
    replace (l ++ p :: entries) with ((l ++ [p]) ++ entries) in * by (rewrite <- app_assoc; reflexivity).
    destruct (add_describes m l p) as [(DB & B & (why & E))|(m1 & E & D1)]; [intros x Hx; apply HS; apply in_or_app; left; exact Hx|exact D| |].
    { left. split; [exact DB|]. split; [|exists why; rewrite E; reflexivity].
      assert (N : 0 <= sum_sizes size entries) by (apply sum_nonneg; intros x Hx; apply HS; apply in_or_app; right; exact Hx).
      rewrite sum_app. lia. }
    rewrite E. cbn [bind]. destruct (IH (l ++ [p]) m1 (n + 1) (fun q Hq => HD q (or_intror Hq)) HS D1) as [(DB & B & W)|(m' & E' & D')].
    { left. auto. }
    right. exists m'. rewrite E'. split; [f_equal; f_equal; unfold zlen; cbn [List.length]; lia|exact D'].
Qed.

Lemma report_wrapped : forall order dir kids,
  let entries := find_all_files dir (Folder kids) in
  (forall m, Permutation (order m) m) ->
  (forall p, In p entries -> detect_file_format inspectors utf8 o fs p = Ok (detected p)) ->
  (forall x, In x entries -> 0 <= size x) ->
  (debug = true /\ 2 ^ 64 <= sum_sizes size entries /\
     exists why, handle_format_analysis debug inspectors utf8 o fs file_size order dir (Some (Folder kids)) = Panic why) \/
  ((debug = true -> sum_sizes size entries < 2 ^ 64) /\
   handle_format_analysis debug inspectors utf8 o fs file_size order dir (Some (Folder kids)) =
   Ok (ROk (Analysis (zlen entries) (zlen entries) (wrap debug (sum_sizes size entries))
     (map (fun x => (fst x, wrap debug (snd x))) (expected_lines detected size entries))))).
Proof.
  intros order dir kids entries P HD HS. unfold handle_format_analysis. fold entries.
  destruct (analyze_eq entries [] [] 0 HD HS describes_nil) as [(DB & B & (why & E))|(m & E & D)].
  { left. split; [exact DB|]. split; [exact B|]. exists why. rewrite E. reflexivity. }
  rewrite E. cbn [bind]. cbn [app] in D.
  assert (TS : wrap debug (add_up (map (fun x => total_size (snd x)) (order m))) = wrap debug (sum_sizes size entries)).
  { rewrite (add_up_perm _ _ (Permutation_map _ (P m))). apply describes_total. exact D. }
  destruct (sum_u64_ok (map (fun x => total_size (snd x)) (order m)) 0 (Z.le_refl 0)) as [(ES & EB)|(DB & B & (why & ES))]; [|exact wrap_0|reflexivity| |].
  - rewrite Forall_map. rewrite Forall_forall. intros x Hx. apply (Permutation_in _ (P m)) in Hx. apply D in Hx as (_ & ->). cbn [row snd total_size].
    apply wrap_nonneg. unfold of_key. pose proof (sum_filter (fun p => key_eqb (key_of p) (fst x)) entries HS). lia.
  - rewrite Z.add_0_l, TS in ES. rewrite Z.add_0_l in EB. right. split.
    + intros DB. specialize (EB DB). rewrite DB in TS. cbn [wrap] in TS. rewrite <- TS. exact EB.
    + rewrite ES. cbn [bind]. rewrite (sorted_rows m entries order D (P m)), lines_expected. rewrite !Z.add_0_l. reflexivity.
  - left. split; [exact DB|]. rewrite DB in TS. cbn [wrap] in TS. split; [rewrite <- TS; lia|]. exists why. rewrite ES. reflexivity.
Qed.
End Command.
End Facts.

Lemma lines_small : forall detected size l x, (forall p, In p l -> 0 <= size p) -> In x (expected_lines detected size l) -> 0 <= snd x <= sum_sizes size l.
Proof.
  intros detected size l x H. unfold expected_lines. rewrite in_flat_map. intros (k & _ & Hx). unfold files_of in Hx.
  pose proof (sum_filter detected size (fun p => if format_eq_dec (detected p) (fst k) then true else false) l H) as B.
  destruct (filter _ l) as [|y ys]; [destruct Hx|]. destruct Hx as [<-|[]]. exact B.
Qed.
Lemma report_eq : forall (detected : components -> option transform_format) (size : components -> Z) debug inspectors utf8 o fs file_size,
  (forall p, size p = match file_size p with Some n => n | None => 0 end) ->
  forall order dir kids,
  let entries := find_all_files dir (Folder kids) in
  (forall m, Permutation (order m) m) ->
  (forall p, In p entries -> detect_file_format inspectors utf8 o fs p = Ok (detected p)) ->
  (forall x, In x entries -> 0 <= size x) -> sum_sizes size entries < 2 ^ 64 ->
  handle_format_analysis debug inspectors utf8 o fs file_size order dir (Some (Folder kids)) =
  Ok (ROk (Analysis (zlen entries) (zlen entries) (sum_sizes size entries) (expected_lines detected size entries))).
Proof.
  intros detected size debug inspectors utf8 o fs file_size HSZ order dir kids entries P HD HS HT.
  destruct (report_wrapped debug detected size inspectors utf8 o fs file_size HSZ order dir kids P HD HS) as [(_ & B & _)|(_ & E)].
  { fold entries in B. lia. }
  fold entries in E. rewrite E. assert (HN : 0 <= sum_sizes size entries) by (pose proof (sum_filter detected size (fun _ => true) entries HS); lia). rewrite wrap_small by lia. f_equal. f_equal. f_equal.
  rewrite <- (map_id (expected_lines detected size entries)) at 2. apply map_ext_in. intros x Hx. destruct x as [nc t].
  apply lines_small in Hx; [|exact HS]. cbn [fst snd] in *. rewrite wrap_small by lia. reflexivity.
Qed.

(** What the handlers find. *)
Lemma kind_unreadable : forall inspectors utf8 o fs p, fs (render p) = None \/ open_ok o (render p) = false \/ map_ok o (render p) = false ->
  detect_file_format inspectors utf8 o fs p = Ok None.
Proof.
  intros inspectors utf8 o fs p H. unfold detect_file_format.
  destruct (@extract_unreadable unit (fun _ => extract_lowercase_extension utf8 p) o (render p) inspectors AllFormats fs (fun _ _ t => Ok (ROk tt, t)) tt H) as (_ & E).
  rewrite E. reflexivity.
Qed.
Lemma kind_stated : forall debug v utf8 o fs p data,
  fs (render p) = Some data -> open_ok o (render p) = true -> map_ok o (render p) = true -> debug = false \/ levels_fit data ->
  detect_file_format (all_inspectors debug v) utf8 o fs p = Ok (stated_kind (extract_lowercase_extension utf8 p) data).
Proof.
  intros debug v utf8 o fs p data HF HO HM HL. unfold detect_file_format, get_transform_format, map_input. rewrite HF, HO, HM. cbn [andb].
  unfold all_inspectors. cbn [format_loop]. cbn [dds_inspector n_can_handle n_format].
  set (ext := extract_lowercase_extension utf8 p). clearbody ext.
  pose proof (parse_dds_spec debug data) as PS. destruct (parse_dds debug data) as [i|why|why] eqn:EP; [|exfalso; destruct PS as (X & Y), HL as [L|L]; [congruence|exact (Y L)]|destruct PS].
  assert (A : dds_can_handle debug data ext = Ok (match ext with Some e => String.eqb e "dds" | None => true end && match i with Some _ => true | None => false end)).
  { unfold dds_can_handle. rewrite EP. destruct ext as [e|]; [destruct (String.eqb e "dds")|]; reflexivity. }
  rewrite A. cbn [bind]. unfold stated_kind.
  assert (B : match ext with None | Some "dds"%string => if has_magic data && complete_headers data then block_format (stated_format data) else None | Some _ => None end
    = if match ext with Some e => String.eqb e "dds" | None => true end then if has_magic data && complete_headers data then block_format (stated_format data) else None else None).
  { destruct ext as [e|]; [|reflexivity]. destruct (String.eqb e "dds") eqn:E; [apply String.eqb_eq in E; subst e; reflexivity|].
    apply String.eqb_neq in E. repeat match goal with |- match ?x with EmptyString => _ | _ => _ end = _ => destruct x; try reflexivity | |- match ?x with Ascii.Ascii _ _ _ _ _ _ _ _ => _ end = _ => destruct x; try reflexivity | |- (if ?x then _ else _) = None => is_var x; destruct x; try reflexivity end; try congruence. }
  rewrite B. destruct (match ext with Some e => String.eqb e "dds" | None => true end); [|reflexivity]. cbn [andb].
  destruct i as [i|].
  - destruct PS as (P1 & P2 & _). rewrite P1, P2. cbn [andb]. rewrite (get_format_eq debug data AllFormats (Some i) EP). cbn [bind].
    destruct (block_format (stated_format data)); reflexivity.
  - replace (has_magic data && complete_headers data) with false; [reflexivity|]. destruct PS as [-> | ->]; [reflexivity|rewrite andb_false_r; reflexivity].
Qed.
Lemma kind_eq : forall debug v utf8 o fs p, (forall data, fs (render p) = Some data -> debug = false \/ levels_fit data) ->
  detect_file_format (all_inspectors debug v) utf8 o fs p = Ok (kind_on_disk (extract_lowercase_extension utf8) o fs p).
Proof.
  intros debug v utf8 o fs p HL. unfold kind_on_disk. destruct (fs (render p)) as [data|] eqn:E; [|apply kind_unreadable; left; exact E].
  destruct (open_ok o (render p)) eqn:EO; [|apply kind_unreadable; right; left; exact EO].
  destruct (map_ok o (render p)) eqn:EM; [|apply kind_unreadable; right; right; exact EM].
  cbn [andb]. apply kind_stated; auto.
Qed.
Definition known (file_size : components -> option Z) (p : components) : Z := match file_size p with Some n => n | None => 0 end.
Lemma dds_report : forall debug v utf8 o fs file_size order dir kids,
  let entries := find_all_files dir (Folder kids) in
  (forall m, Permutation (order m) m) ->
  (forall p data, In p entries -> fs (render p) = Some data -> debug = false \/ levels_fit data) ->
  (forall p n, file_size p = Some n -> 0 <= n) ->
  sum_sizes (fun p => match file_size p with Some n => n | None => 0 end) entries < 2 ^ 64 ->
  handle_format_analysis debug (all_inspectors debug v) utf8 o fs file_size order dir (Some (Folder kids)) =
  Ok (ROk (Analysis (zlen entries) (zlen entries) (sum_sizes (fun p => match file_size p with Some n => n | None => 0 end) entries)
    (expected_lines (kind_on_disk (extract_lowercase_extension utf8) o fs) (fun p => match file_size p with Some n => n | None => 0 end) entries))).
Proof.
  intros debug v utf8 o fs file_size order dir kids entries P HL HS HT.
  apply (report_eq (kind_on_disk (extract_lowercase_extension utf8) o fs) (fun p => match file_size p with Some n => n | None => 0 end)); try assumption.
  - intros p. reflexivity.
  - intros p Hp. apply kind_eq. intros data. exact (HL p data Hp).
  - intros p _. destruct (file_size p) as [n|] eqn:E; [exact (HS p n E)|lia].
Qed.

Lemma dds_report_large : forall debug v utf8 o fs file_size order dir kids,
  let entries := find_all_files dir (Folder kids) in
  let size p := match file_size p with Some n => n | None => 0 end in
  let report := handle_format_analysis debug (all_inspectors debug v) utf8 o fs file_size order dir (Some (Folder kids)) in
  (forall m, Permutation (order m) m) ->
  (forall p data, In p entries -> fs (render p) = Some data -> debug = false \/ levels_fit data) ->
  (forall p n, file_size p = Some n -> 0 <= n) ->
  (debug = false -> report = Ok (ROk (Analysis (zlen entries) (zlen entries) (sum_sizes size entries mod 2 ^ 64)
     (map (fun line => (fst line, snd line mod 2 ^ 64)) (expected_lines (kind_on_disk (extract_lowercase_extension utf8) o fs) size entries))))) /\
  (debug = true -> (exists why, report = Panic why) <-> 2 ^ 64 <= sum_sizes size entries).
Proof.
  intros debug v utf8 o fs file_size order dir kids entries size report P HL HS.
  destruct (report_wrapped debug (kind_on_disk (extract_lowercase_extension utf8) o fs) size (all_inspectors debug v) utf8 o fs file_size (fun _ => eq_refl) order dir kids P) as [(D & B & W)|(B & E)].
  - intros p Hp. apply kind_eq. intros data. exact (HL p data Hp).
  - intros p _. unfold size. destruct (file_size p) as [n|] eqn:E; [exact (HS p n E)|lia].
  - fold entries in B. fold report in W. split; [congruence|]. intros _. split; [intros _; exact B|intros _; exact W].
  - fold entries in B, E. fold report in E. split.
    + intros D. rewrite E, D. reflexivity.
    + intros D. specialize (B D). split; [intros (why & X); rewrite E in X; discriminate X|lia].
Qed.

Lemma lines_plain : forall detected size l,
  map (fun x => (display_name (fst x), count (snd x), total_size (snd x))) (rows_from true detected size all_keys l) = expected_lines detected size l.
Proof.
  intros detected size l. rewrite lines_expected. rewrite <- (map_id (expected_lines detected size l)) at 2. apply map_ext. intros [nc t]. reflexivity.
Qed.
Lemma lines_sums : forall detected size l,
  fold_right Z.add 0 (map (fun x => snd (fst x)) (expected_lines detected size l)) = zlen l /\
  fold_right Z.add 0 (map (fun x => snd x) (expected_lines detected size l)) = sum_sizes size l.
Proof.
  intros detected size l. split.
  - transitivity (sum_sizes (fun _ => 1) l).
    + pose proof (rows_total true detected (fun _ => 1) l) as R. cbn [wrap] in R. rewrite <- R. clear R. unfold add_up. apply (f_equal (fold_right Z.add 0)). rewrite <- (lines_plain detected size l). rewrite map_map. cbn [fst snd].
      unfold rows_from. induction all_keys as [|k ks IH]; [reflexivity|]. cbn [flat_map]. rewrite !map_app, IH. f_equal.
      destruct (of_key detected k l) eqn:E; [reflexivity|]. cbn [map row snd count total_size wrap]. f_equal. rewrite E. clear. unfold zlen, sum_sizes. induction (c :: l0) as [|x xs IH]; [reflexivity|]. cbn [map fold_right List.length]. rewrite <- IH. lia.
    + unfold zlen, sum_sizes. induction l as [|x xs IH]; [reflexivity|]. cbn [map fold_right List.length]. rewrite IH. lia.
  - pose proof (rows_total true detected size l) as R. cbn [wrap] in R. rewrite <- R, <- (lines_plain detected size l), map_map. reflexivity.
Qed.
