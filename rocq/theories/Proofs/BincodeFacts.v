(** What bincode writes, it reads back; and it does not read a part of it. *)
From Verif Require Import Base.Bytes Model.Caches Spec.Caches Spec.Bincode.
From Coq Require Import ZifyBool ZifyNat.
Open Scope list_scope.
Open Scope Z_scope.

(** Reading something that was written, and reading a part of it. *)
Definition readable {A} (read : list byte -> option (A * list byte)) (w : list byte) (x : A) : Prop :=
  (forall r, read (w ++ r) = Some (x, r)) /\ (forall n, (n < List.length w)%nat -> read (firstn n w) = None).

Lemma readable_le : forall n z, 0 <= z < 256 ^ Z.of_nat n -> readable (of_le n) (le_bytes n z) z.
Proof.
  induction n as [|n IH]; intros z Hz; cbn [of_le le_bytes].
  - split; [intros r; cbn in *; repeat f_equal; lia|cbn; lia].
  - assert (Hp : 256 ^ Z.of_nat (S n) = 256 * 256 ^ Z.of_nat n) by (rewrite Nat2Z.inj_succ, Z.pow_succ_r by lia; reflexivity).
    assert (Hd : 0 <= z / 256 < 256 ^ Z.of_nat n) by (split; [apply Z.div_pos; lia|apply Z.div_lt_upper_bound; lia]).
    destruct (IH _ Hd) as (R & P). split.
    + intros r. cbn [app]. rewrite R. rewrite b2z_z2b. do 2 f_equal. pose proof (Z.div_mod z 256 ltac:(lia)). lia.
    + intros k Hk. destruct k as [|k]; [reflexivity|]. cbn [firstn]. rewrite P; [reflexivity|]. cbn [List.length] in Hk. lia.
Qed.

Lemma readable_number : forall z, 0 <= z < 2 ^ 128 -> readable read_number (write_number z) z.
Proof.
  intros z Hz. unfold write_number.
  assert (T : forall t n, 251 <= t < 255 -> 0 <= z < 256 ^ Z.of_nat n -> (forall l, read_number (z2b t :: l) = of_le n l) ->
              readable read_number (z2b t :: le_bytes n z) z).
  { intros t n Ht Hn E. destruct (readable_le n z Hn) as (R & P). split.
    - intros r. cbn [app]. rewrite E. apply R.
    - intros k Hk. destruct k as [|k]; [reflexivity|]. cbn [firstn]. rewrite E. apply P. cbn [List.length] in Hk. lia. }
  destruct (z <? 251) eqn:E1.
  - assert (B : b2z (z2b z) = z) by (rewrite b2z_z2b; apply Z.mod_small; lia). split.
    + intros r. cbn [app read_number]. rewrite B, E1. reflexivity.
    + intros n Hn. cbn in Hn. replace n with O by lia. reflexivity.
  - destruct (z <? 2 ^ 16) eqn:E2; [apply (T 251 2%nat); [lia|cbn; lia|intros l; reflexivity]|].
    destruct (z <? 2 ^ 32) eqn:E3; [apply (T 252 4%nat); [lia|cbn; lia|intros l; reflexivity]|].
    destruct (z <? 2 ^ 64) eqn:E4; [apply (T 253 8%nat); [lia|cbn; lia|intros l; reflexivity]|].
    apply (T 254 16%nat); [lia|cbn; lia|intros l; reflexivity].
Qed.

Lemma unzigzag_zigzag : forall z, unzigzag (zigzag z) = z.
Proof.
  intros z. unfold unzigzag, zigzag. destruct (0 <=? z) eqn:E.
  - replace (Z.even (2 * z)) with true by (symmetry; rewrite Z.even_mul; reflexivity). rewrite Z.mul_comm, Z.div_mul by lia. reflexivity.
  - replace (Z.even (-2 * z - 1)) with false by (symmetry; rewrite Z.even_sub, Z.even_mul; reflexivity).
    replace (-2 * z - 1 + 1) with ((- z) * 2) by lia. rewrite Z.div_mul by lia. lia.
Qed.

Lemma readable_algorithm : forall a, readable read_algorithm (write_algorithm a) a.
Proof.
  intros [].
  - destruct (readable_number 0 ltac:(lia)) as (R & P). split; [intros r; unfold read_algorithm, write_algorithm; rewrite R; reflexivity|].
    intros n Hn. unfold read_algorithm, write_algorithm in *. rewrite P by exact Hn. reflexivity.
  - destruct (readable_number 1 ltac:(lia)) as (R & P). split; [intros r; unfold read_algorithm, write_algorithm; rewrite R; reflexivity|].
    intros n Hn. unfold read_algorithm, write_algorithm in *. rewrite P by exact Hn. reflexivity.
Qed.

(** One after another. *)
Lemma readable_then : forall {A B} (ra : list byte -> option (A * list byte)) (rb : A -> list byte -> option (B * list byte)) wa wb x y,
  readable ra wa x -> readable (rb x) wb y ->
  readable (fun l => match ra l with None => None | Some (x, l) => rb x l end) (wa ++ wb) y.
Proof.
  intros A B ra rb wa wb x y (Ra & Pa) (Rb & Pb). split.
  - intros r. rewrite <- app_assoc, Ra. apply Rb.
  - intros n Hn. rewrite firstn_app. destruct (lt_dec n (List.length wa)) as [L|L].
    + replace (n - List.length wa)%nat with O by lia. cbn [firstn]. rewrite app_nil_r, Pa by exact L. reflexivity.
    + rewrite firstn_all2 by lia. rewrite Ra. apply Pb. rewrite app_length in Hn. lia.
Qed.
Lemma readable_ret : forall {A} (x : A), readable (fun l => Some (x, l)) [] x.
Proof. intros A x. split; [reflexivity|cbn; lia]. Qed.
Lemma readable_map : forall {A B} (ra : list byte -> option (A * list byte)) (f : A -> B) w x,
  readable ra w x -> readable (fun l => match ra l with None => None | Some (x, l) => Some (f x, l) end) w (f x).
Proof. intros A B ra f w x (R & P). split; [intros r; rewrite R; reflexivity|intros n Hn; rewrite P by exact Hn; reflexivity]. Qed.

Lemma readable_entry : forall k n, in_range k n -> readable read_entry (write_entry (k, n)) (k, n).
Proof.
  intros [[h level] a] n (H1 & H2 & H3). cbn [fst snd] in *. unfold write_entry, read_entry.
  assert (Hz : 0 <= zigzag level < 2 ^ 128) by (unfold zigzag; destruct (0 <=? level) eqn:E; lia).
  apply (readable_then read_number _ _ _ h _ (readable_number h H1)).
  apply (readable_then read_number _ _ _ (zigzag level) _ (readable_number _ Hz)).
  apply (readable_then read_algorithm _ _ _ a _ (readable_algorithm a)).
  rewrite unzigzag_zigzag.
  apply (readable_map read_number (fun n => (h, level, a, n)) _ n). apply readable_number. lia.
Qed.

Lemma readable_entries : forall m, Forall (fun e => in_range (fst e) (snd e)) m -> readable (read_entries (List.length m)) (flat_map write_entry m) m.
Proof.
  induction m as [|[k n] m IH]; intros F; cbn [List.length read_entries flat_map].
  - apply readable_ret.
  - inversion F as [|? ? F1 F2]; subst.
    apply (readable_then read_entry (fun e l => match read_entries (List.length m) l with None => None | Some (m, l) => Some (e :: m, l) end) _ _ (k, n)).
    + apply readable_entry. exact F1.
    + apply (readable_map (read_entries (List.length m)) (fun m => (k, n) :: m)). apply IH. exact F2.
Qed.

Lemma standard_reads_back : reads_back standard.
Proof.
  assert (T : forall m, holdable m ->
    decode standard (encode standard m) = Some m /\ forall n, (n < List.length (encode standard m))%nat -> decode standard (firstn n (encode standard m)) = None).
  { intros m (N & F & L). cbn [standard encode decode].
    assert (R : readable (fun l => match read_number l with None => None | Some (n, l) => read_entries (Z.to_nat n) l end)
                  (write_number (zlen m) ++ flat_map write_entry m) m).
    { apply (readable_then read_number (fun n l => read_entries (Z.to_nat n) l) _ _ (zlen m)).
      - apply readable_number. pose proof (zlen_nonneg _ m). lia.
      - unfold zlen. rewrite Nat2Z.id. apply readable_entries. exact F. }
    destruct R as (R & P). split.
    - specialize (R []). rewrite app_nil_r in R. destruct (read_number _) as [[n l]|]; [|discriminate]. rewrite R. reflexivity.
    - intros n Hn. specialize (P n Hn). destruct (read_number _) as [[k l]|]; [|reflexivity]. rewrite P. reflexivity. }
  split.
  - intros m H. exists m. split; [exact (proj1 (T m H))|]. split; [exact H|]. reflexivity.
  - intros m n H L. exact (proj2 (T m H) n L).
Qed.
