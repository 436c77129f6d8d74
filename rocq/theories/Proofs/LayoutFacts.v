(** Facts about the layout specification: lengths, inverse. *)
From Verif Require Import Base.Bytes Model.Color565 Proofs.Color565Facts Spec.YCoCg Spec.Layout.
From Coq Require Import ZifyBool ZifyNat.

Lemma ycocg_decorrelate : forall v x, 0 <= x < 65536 -> decorrelate v x = ycocg v x.
Proof.
  intros v x H. destruct v; [reflexivity| | |]; unfold decorrelate;
    (assert (E : x = pk (x / 2048) (x / 64 mod 32) (x / 32 mod 2) (x mod 32)) by (unfold pk; lia);
     rewrite E at 1;
     destruct (decorrelate_fields (x / 2048) (x / 64 mod 32) (x / 32 mod 2) (x mod 32)) as (A & B & C); [lia..|];
     first [rewrite A | rewrite B | rewrite C]; reflexivity).
Qed.

Lemma ycocg_bound : forall v x, 0 <= x < 65536 -> 0 <= ycocg v x < 65536.
Proof. intros. rewrite <- ycocg_decorrelate by assumption. apply decorrelate_bound. assumption. Qed.

(** ** Inverse of a layout *)

Fixpoint sections (ws : list nat) (n : nat) (l : list byte) : list (list (list byte)) :=
  match ws with
  | [] => []
  | w :: ws' => chunks w n l :: sections ws' n (skipn (n * w) l)
  end.
(** Block [i] is rebuilt by [g] from chunk [i] of every section. *)
Definition unlay (ws : list nat) (g : list (list byte) -> list byte) (n : nat) (l : list byte) : list byte :=
  List.concat (map (fun i => g (map (fun s => nth i s []) (sections ws n l))) (seq 0 n)).

Definition sum (ws : list nat) : nat := fold_right Nat.add O ws.

Lemma chunks_length : forall k n l, List.length (chunks k n l) = n.
Proof. induction n as [|n IH]; intros l; simpl; [reflexivity|]. rewrite IH. reflexivity. Qed.

Lemma chunks_in : forall k n l b, (n * k <= List.length l)%nat -> In b (chunks k n l) -> List.length b = k.
Proof.
  induction n as [|n IH]; intros l b H Hb; simpl in *; [contradiction|].
  destruct Hb as [<-|Hb]; [rewrite firstn_length; lia|].
  apply (IH (skipn k l)); [rewrite skipn_length; lia|exact Hb].
Qed.

Lemma nth_chunks : forall k n l i, (i < n)%nat -> nth i (chunks k n l) [] = firstn k (skipn (i * k) l).
Proof.
  induction n as [|n IH]; intros l i H; [lia|]. simpl. destruct i as [|i]; [reflexivity|].
  rewrite IH by lia. rewrite skipn_skipn'. do 2 f_equal. lia.
Qed.

Lemma concat_chunks : forall k n l, List.length l = (n * k)%nat -> List.concat (chunks k n l) = l.
Proof.
  induction n as [|n IH]; intros l H; simpl.
  - destruct l; [reflexivity|discriminate].
  - rewrite IH by (rewrite skipn_length; lia). apply firstn_skipn.
Qed.

Lemma chunks_app : forall k (bs : list (list byte)) r, (forall b, In b bs -> List.length b = k) ->
  chunks k (List.length bs) (List.concat bs ++ r) = bs.
Proof.
  induction bs as [|b bs IH]; intros r H; simpl; [reflexivity|].
  assert (Hb : List.length b = k) by (apply H; left; reflexivity).
  rewrite <- app_assoc. rewrite firstn_app, skipn_app, Hb, Nat.sub_diag. simpl.
  rewrite app_nil_r. rewrite firstn_all2 by lia. rewrite skipn_all2 by lia. simpl.
  f_equal. apply IH. intros x Hx. apply H. right. exact Hx.
Qed.

Lemma length_concat_const : forall k (bs : list (list byte)), (forall b, In b bs -> List.length b = k) ->
  List.length (List.concat bs) = (List.length bs * k)%nat.
Proof.
  induction bs as [|b bs IH]; intros H; simpl; [reflexivity|].
  rewrite app_length, IH; [|intros x Hx; apply H; right; exact Hx].
  rewrite (H b) by (left; reflexivity). lia.
Qed.

(** [f] produces [w] bytes from each block of [k]. *)
Definition fwidth (k : nat) (f : field) (w : nat) : Prop := forall b, List.length b = k -> List.length (f b) = w.

Lemma lay_cons : forall f fs bs, lay (f :: fs) bs = List.concat (map f bs) ++ lay fs bs.
Proof. reflexivity. Qed.

Lemma lay_length : forall k fs ws bs, Forall2 (fwidth k) fs ws -> (forall b, In b bs -> List.length b = k) ->
  List.length (lay fs bs) = (List.length bs * sum ws)%nat.
Proof.
  intros k fs ws bs H Hb. induction H as [|f w fs ws Hf H IH]; [simpl; lia|].
  rewrite lay_cons, app_length, IH, (length_concat_const w).
  - rewrite map_length. simpl. lia.
  - intros x Hx. apply in_map_iff in Hx. destruct Hx as (b & <- & Hin). apply Hf. auto.
Qed.

Lemma sections_lay : forall k fs ws bs, Forall2 (fwidth k) fs ws -> (forall b, In b bs -> List.length b = k) ->
  sections ws (List.length bs) (lay fs bs) = map (fun f => map f bs) fs.
Proof.
  intros k fs ws bs H Hb. induction H as [|f w fs ws Hf H IH]; [reflexivity|].
  rewrite lay_cons. cbn [sections map].
  assert (HL : forall x, In x (map f bs) -> List.length x = w).
  { intros x Hx. apply in_map_iff in Hx. destruct Hx as (b & <- & Hin). apply Hf. auto. }
  f_equal.
  - rewrite <- (map_length f bs). apply chunks_app. exact HL.
  - replace (List.length bs * w)%nat with (List.length (List.concat (map f bs)))
      by (rewrite (length_concat_const w) by exact HL; rewrite map_length; reflexivity).
    rewrite skipn_app, skipn_all, Nat.sub_diag. simpl. exact IH.
Qed.

Lemma map_nth_seq : forall A (l : list A) d, map (fun i => nth i l d) (seq 0 (List.length l)) = l.
Proof.
  intros A l d. apply nth_ext with (d := d) (d' := d).
  - rewrite map_length, seq_length. reflexivity.
  - intros i Hi. rewrite map_length, seq_length in Hi.
    rewrite nth_indep with (d' := nth O l d) by (rewrite map_length, seq_length; exact Hi).
    rewrite (map_nth (fun i => nth i l d)). rewrite seq_nth by lia. reflexivity.
Qed.

(** Taking the sections apart and rebuilding every block gives the blocks back. *)
Lemma unlay_lay_blocks : forall k fs ws g bs, Forall2 (fwidth k) fs ws ->
  (forall b, In b bs -> List.length b = k) ->
  (forall b, List.length b = k -> g (map (fun f => f b) fs) = b) ->
  unlay ws g (List.length bs) (lay fs bs) = List.concat bs.
Proof.
  intros k fs ws g bs H Hin Hg. unfold unlay. rewrite (sections_lay k fs ws _ H Hin). f_equal.
  transitivity (map (fun i => nth i bs []) (seq 0 (List.length bs))); [|apply map_nth_seq].
  apply map_ext_in. intros i Hi. apply in_seq in Hi.
  rewrite map_map.
  rewrite <- (Hg (nth i bs [])) by (apply Hin, nth_In; lia).
  f_equal. apply map_ext. intros f.
  rewrite nth_indep with (d' := f []) by (rewrite map_length; lia).
  apply map_nth.
Qed.

Lemma unlay_lay : forall k fs ws g l n, Forall2 (fwidth k) fs ws -> List.length l = (n * k)%nat ->
  (forall b, List.length b = k -> g (map (fun f => f b) fs) = b) ->
  unlay ws g n (lay fs (chunks k n l)) = l.
Proof.
  intros k fs ws g l n H Hl Hg.
  pose proof (unlay_lay_blocks k fs ws g (chunks k n l) H) as E.
  rewrite chunks_length in E. rewrite E; [apply concat_chunks; exact Hl| |exact Hg].
  intros b Hb. apply (chunks_in k n l); [lia|exact Hb].
Qed.

Lemma sections_length : forall ws n l, List.length (sections ws n l) = List.length ws.
Proof. induction ws as [|w ws IH]; intros n l; simpl; [reflexivity|]. rewrite IH. reflexivity. Qed.

Definition widths (ws : list nat) (cs : list (list byte)) : Prop := Forall2 (fun c w => List.length c = w) cs ws.

Lemma sections_widths : forall ws n l i, List.length l = (n * sum ws)%nat -> (i < n)%nat ->
  widths ws (map (fun s => nth i s []) (sections ws n l)).
Proof.
  induction ws as [|w ws IH]; intros n l i Hl Hi; simpl; constructor.
  - apply (chunks_in w n l); [simpl in Hl; lia|]. apply nth_In. rewrite chunks_length. exact Hi.
  - apply IH; [|exact Hi]. rewrite skipn_length, Hl. simpl. lia.
Qed.

(** [g] rebuilds a block of [k] bytes from which every field can be read off. *)
Definition rebuilds (k : nat) (fs : list field) (ws : list nat) (g : list (list byte) -> list byte) : Prop :=
  forall cs, widths ws cs -> List.length (g cs) = k /\ map (fun f => f (g cs)) fs = cs.

Lemma unlay_length : forall k fs ws g n l, rebuilds k fs ws g -> List.length l = (n * sum ws)%nat ->
  List.length (unlay ws g n l) = (n * k)%nat.
Proof.
  intros k fs ws g n l Hr Hl. unfold unlay. rewrite (length_concat_const k).
  - rewrite map_length, seq_length. reflexivity.
  - intros b Hb. apply in_map_iff in Hb. destruct Hb as (i & <- & Hi). apply in_seq in Hi.
    apply Hr. apply sections_widths; [exact Hl|lia].
Qed.

Lemma lay_sections : forall ws n l (fs : list field) (bs : list (list byte)),
  List.length l = (n * sum ws)%nat -> List.length bs = n -> List.length fs = List.length ws ->
  (forall i, (i < n)%nat -> map (fun f => f (nth i bs [])) fs = map (fun s => nth i s []) (sections ws n l)) ->
  lay fs bs = l.
Proof.
  induction ws as [|w ws IH]; intros n l fs bs Hl Hb Hf H.
  - destruct fs; [|discriminate]. simpl in *. destruct l; [reflexivity|simpl in Hl; lia].
  - destruct fs as [|f fs]; [discriminate|]. rewrite lay_cons. simpl in Hl, Hf.
    rewrite (IH n (skipn (n * w) l) fs bs).
    + rewrite <- (firstn_skipn (n * w) l) at 2. f_equal.
      rewrite <- (concat_chunks w n (firstn (n * w) l)) by (rewrite firstn_length; lia). f_equal.
      apply nth_ext with (d := f []) (d' := []).
      * rewrite map_length, chunks_length. exact Hb.
      * intros i Hi. rewrite map_length in Hi. rewrite map_nth.
        specialize (H i ltac:(lia)). cbn [sections map] in H. injection H as H _. rewrite H.
        rewrite !nth_chunks by lia. rewrite skipn_firstn_comm, firstn_firstn. f_equal. nia.
    + rewrite skipn_length. lia.
    + exact Hb.
    + lia.
    + intros i Hi. specialize (H i Hi). cbn [sections map] in H. injection H as _ H. exact H.
Qed.

(** Rebuilding the blocks and laying them out again gives the sections back. *)
Lemma lay_unlay : forall k fs ws g l n, List.length fs = List.length ws ->
  List.length l = (n * sum ws)%nat -> rebuilds k fs ws g ->
  lay fs (chunks k n (unlay ws g n l)) = l.
Proof.
  intros k fs ws g l n Hf Hl Hr.
  apply (lay_sections ws n); [exact Hl|apply chunks_length|exact Hf|].
  intros i Hi.
  assert (E : chunks k n (unlay ws g n l) =
              map (fun i => g (map (fun s => nth i s []) (sections ws n l))) (seq 0 n)).
  { unfold unlay. rewrite <- (app_nil_r (List.concat _)).
    rewrite <- (seq_length n 0) at 1.
    rewrite <- (map_length (fun i => g (map (fun s => nth i s []) (sections ws n l))) (seq 0 n)) at 1.
    apply chunks_app. intros b Hb. apply in_map_iff in Hb. destruct Hb as (j & <- & Hj). apply in_seq in Hj.
    apply Hr. apply sections_widths; [exact Hl|lia]. }
  rewrite E.
  rewrite nth_indep with (d' := g (map (fun s => nth O s []) (sections ws n l)))
    by (rewrite map_length, seq_length; exact Hi).
  rewrite (map_nth (fun i => g (map (fun s => nth i s []) (sections ws n l)))).
  rewrite seq_nth by exact Hi. apply Hr. apply sections_widths; [exact Hl|exact Hi].
Qed.
