(** Layout facts for whole textures, and the checked slice functions. *)
From Verif Require Import Base.Bytes Base.Res Model.Color565 Model.Ycc Model.Kernel Model.Transform
  Proofs.KernelCheck Proofs.KernelLoop Proofs.KernelFun Proofs.Shapes Spec.YCoCg Spec.Layout
  Proofs.LayoutFacts Proofs.ShapeLayout Proofs.Families Proofs.TransformFacts.
From Coq Require Import ZifyBool ZifyNat Permutation.

(** ** Sections *)

Lemma nth_concat_const : forall w (ls : list (list byte)) p, (0 < w)%nat -> (forall x, In x ls -> List.length x = w) ->
  (p < List.length ls * w)%nat -> nth p (List.concat ls) x00 = nth (p mod w)%nat (nth (p / w)%nat ls []) x00.
Proof.
  intros w ls. induction ls as [|x ls IH]; intros p Hw H Hp; simpl in Hp; [lia|].
  assert (Hx : List.length x = w) by (apply H; left; reflexivity).
  cbn [List.concat]. destruct (Nat.lt_ge_cases p w) as [L|L].
  - rewrite app_nth1 by lia. rewrite Nat.div_small, Nat.mod_small by lia. reflexivity.
  - rewrite app_nth2 by lia. rewrite Hx, IH by (try lia; intros; apply H; right; assumption).
    replace p with ((p - w) + 1 * w)%nat at 3 4 by lia.
    rewrite Nat.mod_add, Nat.div_add by lia. rewrite Nat.add_1_r. reflexivity.
Qed.

Lemma lay_nth : forall k fs ws bs bs' p, Forall2 (fwidth k) fs ws -> Forall (fun w => (0 < w)%nat) ws ->
  (forall b, In b bs -> List.length b = k) -> (forall b, In b bs' -> List.length b = k) ->
  List.length bs = List.length bs' -> (p < List.length bs * sum ws)%nat ->
  nth (owner ws (List.length bs) p) bs [] = nth (owner ws (List.length bs) p) bs' [] ->
  nth p (lay fs bs) x00 = nth p (lay fs bs') x00.
Proof.
  intros k fs ws bs bs' p H. revert p. induction H as [|f w fs ws Hf H IH]; intros p Hp Hb Hb' HL Hlt E.
  - simpl in Hlt. lia.
  - inversion Hp; subst. rewrite !lay_cons. cbn [owner] in E.
    assert (A : forall (q : list (list byte)), (forall b, In b q -> List.length b = k) -> forall x, In x (map f q) -> List.length x = w).
    { intros q Hq x Hx. apply in_map_iff in Hx. destruct Hx as (b & <- & Hin). apply Hf. auto. }
    assert (LC : forall (q : list (list byte)), (forall b, In b q -> List.length b = k) -> List.length (List.concat (map f q)) = (List.length q * w)%nat).
    { intros q Hq. rewrite (length_concat_const w) by (apply A; exact Hq). rewrite map_length. reflexivity. }
    destruct (Nat.ltb_spec p (List.length bs * w)) as [L|L].
    + rewrite !app_nth1 by (rewrite LC by assumption; lia).
      assert (D : (p / w < List.length bs)%nat) by (apply Nat.div_lt_upper_bound; lia).
      rewrite !(nth_concat_const w) by first [assumption | apply A; assumption | rewrite map_length; lia].
      rewrite !(nth_indep _ [] (f [])) by (rewrite map_length; lia).
      rewrite !map_nth, E. reflexivity.
    + rewrite !app_nth2 by (rewrite LC by assumption; lia). rewrite !LC by assumption. rewrite <- HL.
      apply IH; try assumption. simpl in Hlt. unfold sum in *. lia.
Qed.

(** Block [i] of the texture is determined by the bytes that belong to block [i]. *)
Lemma sections_nth : forall ws n l l' i, Forall (fun w => (0 < w)%nat) ws ->
  List.length l = List.length l' -> (i < n)%nat -> List.length l = (n * sum ws)%nat ->
  (forall p, (p < List.length l)%nat -> owner ws n p = i -> nth p l x00 = nth p l' x00) ->
  map (fun s => nth i s []) (sections ws n l) = map (fun s => nth i s []) (sections ws n l').
Proof.
  induction ws as [|w ws IH]; intros n l l' i Hw HL Hi Hl E; [reflexivity|].
  inversion Hw; subst. cbn [sections map]. simpl in Hl. fold (sum ws) in Hl.
  assert (HT : (i * w + w <= n * w)%nat) by nia.
  f_equal.
  - rewrite !nth_chunks by exact Hi. apply nth_ext with (d := x00) (d' := x00).
    + rewrite !firstn_length, !skipn_length. lia.
    + intros q Hq. rewrite firstn_length, skipn_length in Hq.
      rewrite !nth_firstn by lia. rewrite !nth_skipn. apply E; [lia|].
      cbn [owner]. destruct (Nat.ltb_spec (i * w + q) (n * w)) as [L|L]; [|lia].
      rewrite Nat.div_add_l by lia. rewrite Nat.div_small by lia. lia.
  - apply IH; try assumption; rewrite ?skipn_length; try lia.
    intros p Hp Ho. rewrite !nth_skipn. apply E; [lia|]. cbn [owner].
    destruct (Nat.ltb_spec (n * w + p) (n * w)) as [L|L]; [lia|]. replace (n * w + p - n * w)%nat with p by lia. exact Ho.
Qed.

(** Every block owns as many bytes of the output as it has. *)
Lemma count_run : forall (i w n : nat), (0 < w)%nat -> (i < n)%nat ->
  List.length (filter (fun p => (p / w =? i)%nat) (seq 0 (n * w))) = w.
Proof.
  intros i w n Hw Hi.
  replace (n * w)%nat with (i * w + (w + (n - i - 1) * w))%nat by nia.
  rewrite !seq_app, !filter_app, !app_length. cbn [plus].
  assert (A : forall s len, (forall p, (s <= p < s + len)%nat -> (p / w =? i)%nat = false) ->
     List.length (filter (fun p => (p / w =? i)%nat) (seq s len)) = O).
  { intros s len. revert s. induction len as [|len IH]; intros s H; [reflexivity|]. cbn [seq filter].
    rewrite (H s) by lia. apply IH. intros. apply H. lia. }
  assert (B : forall s len, (forall p, (s <= p < s + len)%nat -> (p / w =? i)%nat = true) ->
     List.length (filter (fun p => (p / w =? i)%nat) (seq s len)) = len).
  { intros s len. revert s. induction len as [|len IH]; intros s H; [reflexivity|]. cbn [seq filter].
    rewrite (H s) by lia. cbn [List.length]. f_equal. apply IH. intros. apply H. lia. }
  rewrite A, B, A; [lia| | |].
  - intros p Hp. apply Nat.eqb_neq. intros C. pose proof (Nat.div_mod p w). pose proof (Nat.mod_upper_bound p w). nia.
  - intros p Hp. apply Nat.eqb_eq. symmetry. apply (Nat.div_unique p w i (p - i * w)); nia.
  - intros p Hp. apply Nat.eqb_neq. intros C. pose proof (Nat.div_mod p w). pose proof (Nat.mod_upper_bound p w). nia.
Qed.

Lemma owner_count : forall ws n i, Forall (fun w => (0 < w)%nat) ws -> (i < n)%nat ->
  List.length (filter (fun p => (owner ws n p =? i)%nat) (seq 0 (n * sum ws))) = sum ws.
Proof.
  induction ws as [|w ws IH]; intros n i Hw Hi.
  - simpl. rewrite Nat.mul_0_r. reflexivity.
  - inversion Hw; subst. cbn [sum fold_right]. fold (sum ws).
    rewrite Nat.mul_add_distr_l, seq_app, filter_app, app_length. f_equal.
    + rewrite <- (count_run i w n) at 2 by assumption. f_equal. apply filter_ext_in.
      intros p Hp. apply in_seq in Hp. cbn [owner]. destruct (Nat.ltb_spec p (n * w)); [reflexivity|lia].
    + transitivity (List.length (filter (fun p => (owner ws n p =? i)%nat) (seq 0 (n * sum ws)))); [|apply IH; assumption].
      rewrite <- (seq_length (n * sum ws) 0) at 1.
      replace (seq (0 + n * w) (List.length (seq 0 (n * sum ws)))) with (map (fun q => (n * w + q)%nat) (seq 0 (n * sum ws))).
      * rewrite <- (map_length (fun q => (n * w + q)%nat) (filter _ (seq 0 (n * sum ws)))). f_equal.
        generalize (seq 0 (n * sum ws)) as l. induction l as [|q l IHl]; [reflexivity|]. cbn [map filter].
        replace (owner (w :: ws) n (n * w + q)) with (owner ws n q).
        { destruct (owner ws n q =? i)%nat; cbn [map]; rewrite IHl; reflexivity. }
        cbn [owner]. destruct (Nat.ltb_spec (n * w + q) (n * w)); [lia|]. f_equal. lia.
      * rewrite seq_length. generalize (n * sum ws)%nat as len. intros len. clear.
        generalize O as s. induction len as [|len IHl]; intros s; [reflexivity|]. cbn [seq map]. f_equal; [lia|].
        rewrite IHl. f_equal; lia.
Qed.

Lemma lay_perm : forall fs bs, (forall b, In b bs -> List.concat (map (fun f : field => f b) fs) = b) ->
  Permutation (lay fs bs) (List.concat bs).
Proof.
  intros fs bs. induction bs as [|b bs IH]; intros H.
  - unfold lay. simpl. induction fs as [|f fs IHf]; simpl; [constructor|]. apply IHf. intros b [].
  - assert (S : Permutation (lay fs (b :: bs)) (List.concat (map (fun f : field => f b) fs) ++ lay fs bs)).
    { clear. induction fs as [|f fs IH]; [constructor|]. rewrite !lay_cons. cbn [map List.concat].
      rewrite <- !app_assoc. apply Permutation_app_head.
      rewrite IH. rewrite !app_assoc. apply Permutation_app_tail. apply Permutation_app_comm. }
    rewrite S, H by (left; reflexivity). cbn [List.concat]. apply Permutation_app_head. apply IH.
    intros; apply H; right; assumption.
Qed.

(** ** Whole textures, for any family *)

Section Fam.
Variables (v : variant) (sht shu : shape) (k : nat) (fs : list field) (ws : list nat).
Hypotheses (FM : FAM v sht shu k fs ws) (Hk : (0 < k)%nat) (Hw : Forall (fun w => (0 < w)%nat) ws).

Lemma fam_len : forall x, (List.length x mod k = 0)%nat -> List.length (lay fs (blocks k x)) = List.length x.
Proof.
  intros x Hm. pose proof (lay_zlen _ _ _ _ _ _ x FM Hk) as L. unfold zlen in L. lia.
Qed.

Lemma fam_div : forall x : list byte, (List.length x mod k = 0)%nat -> (List.length x = List.length x / k * k)%nat.
Proof. intros x H. pose proof (Nat.div_mod (List.length x) k ltac:(lia)). lia. Qed.

Lemma fam_inj : forall x x', (List.length x mod k = 0)%nat -> List.length x = List.length x' ->
  lay fs (blocks k x) = lay fs (blocks k x') -> x = x'.
Proof.
  intros x x' Hm HL E.
  apply (FAM_injective _ _ _ _ _ _ (lay fs (blocks k x)) x x' FM Hk).
  - rewrite fam_len by exact Hm. exact Hm.
  - split; [symmetry; apply fam_len; exact Hm|reflexivity].
  - split; [rewrite fam_len by exact Hm; lia|symmetry; exact E].
Qed.

Lemma fam_local : forall x x' p, (List.length x mod k = 0)%nat -> List.length x = List.length x' -> (p < List.length x)%nat ->
  nth (owner ws (List.length x / k) p) (blocks k x) [] = nth (owner ws (List.length x / k) p) (blocks k x') [] ->
  nth p (lay fs (blocks k x)) x00 = nth p (lay fs (blocks k x')) x00.
Proof.
  intros x x' p Hm HL Hp E. pose proof (fam_div x Hm) as D.
  apply (lay_nth k fs ws); unfold blocks in *; rewrite ?chunks_length; try rewrite <- HL in *; auto.
  - apply FM.
  - intros b Hb. apply (chunks_in k (List.length x / k) x b ltac:(lia) Hb).
  - intros b Hb. apply (chunks_in k (List.length x / k) x' b ltac:(lia) Hb).
  - rewrite (fam_sum _ _ _ _ _ _ FM). lia.
Qed.

Lemma fam_unlocal : forall x x' i, (List.length x mod k = 0)%nat -> List.length x = List.length x' -> (i < List.length x / k)%nat ->
  (forall p, (p < List.length x)%nat -> owner ws (List.length x / k) p = i ->
     nth p (lay fs (blocks k x)) x00 = nth p (lay fs (blocks k x')) x00) ->
  nth i (blocks k x) [] = nth i (blocks k x') [].
Proof.
  intros x x' i Hm HL Hi E. pose proof (fam_div x Hm) as D.
  destruct (fam_ou _ _ _ _ _ _ FM) as (t & _ & _ & Hinv & _).
  assert (A : forall z, List.length z = List.length x -> nth i (blocks k z) [] =
     tmpl_blk v t (map (fun s => nth i s []) (sections ws (List.length x / k) (lay fs (blocks k z))))).
  { intros z Hz. unfold blocks. rewrite Hz.
    assert (C : forall b, In b (chunks k (List.length x / k) z) -> List.length b = k) by (intros b Hb; apply (chunks_in k (List.length x / k) z b ltac:(lia) Hb)).
    pose proof (sections_lay k fs ws (chunks k (List.length x / k) z) (fam_fw _ _ _ _ _ _ FM) C) as S.
    rewrite chunks_length in S. rewrite S, map_map.
    rewrite map_ext with (g := fun f : field => f (nth i (chunks k (List.length x / k) z) [])).
    - symmetry. apply Hinv. apply C. apply nth_In. rewrite chunks_length. exact Hi.
    - intros f. rewrite (nth_indep _ [] (f [])) by (rewrite map_length, chunks_length; exact Hi). apply map_nth. }
  rewrite (A x eq_refl), (A x' (eq_sym HL)). f_equal.
  apply sections_nth; auto.
  - rewrite !fam_len by (rewrite <- ?HL; exact Hm). exact HL.
  - rewrite fam_len by exact Hm. rewrite (fam_sum _ _ _ _ _ _ FM). exact D.
  - intros p Hp Ho. rewrite fam_len in Hp by exact Hm. apply E; assumption.
Qed.
End Fam.

(** ** The three formats *)

Lemma bc1_fam : forall v sp, exists sht shu, FAM v sht shu 8 (bc1_fields v sp) (bc1_widths sp).
Proof. intros v []; do 2 eexists; [apply fam_bc1_scr|apply fam_bc1_rec]. Qed.
Lemma bc2_fam : forall v sp, exists sht shu, FAM v sht shu 16 (bc2_fields v sp) (bc2_widths sp).
Proof. intros v []; do 2 eexists; [apply fam_bc2_scr|apply fam_bc2_rec]. Qed.
Lemma bc3_fam : forall v sa sp, exists sht shu, FAM v sht shu 16 (bc3_fields v sa sp) (bc3_widths sa sp).
Proof. intros v [] []; do 2 eexists; [apply fam_bc3_sacr|apply fam_bc3_sar|apply fam_bc3_scr|apply fam_bc3_rec]. Qed.
Lemma bc1_wpos : forall sp, Forall (fun w => (0 < w)%nat) (bc1_widths sp).
Proof. intros []; repeat constructor. Qed.
Lemma bc2_wpos : forall sp, Forall (fun w => (0 < w)%nat) (bc2_widths sp).
Proof. intros []; repeat constructor. Qed.
Lemma bc3_wpos : forall sa sp, Forall (fun w => (0 < w)%nat) (bc3_widths sa sp).
Proof. intros [] []; repeat constructor. Qed.

Lemma bc1_none : forall sp b, List.length b = 8%nat -> List.concat (map (fun f : field => f b) (bc1_fields VNone sp)) = b.
Proof. intros sp b H. do 8 (destruct b as [|? b]; [discriminate H|]). destruct b; [|discriminate H]. destruct sp; cbn; rewrite ?lo8_u16le, ?hi8_u16le; reflexivity. Qed.
Lemma bc2_none : forall sp b, List.length b = 16%nat -> List.concat (map (fun f : field => f b) (bc2_fields VNone sp)) = b.
Proof. intros sp b H. do 16 (destruct b as [|? b]; [discriminate H|]). destruct b; [|discriminate H]. destruct sp; cbn; rewrite ?lo8_u16le, ?hi8_u16le; reflexivity. Qed.
Lemma bc3_none : forall sa sp b, List.length b = 16%nat -> List.concat (map (fun f : field => f b) (bc3_fields VNone sa sp)) = b.
Proof. intros sa sp b H. do 16 (destruct b as [|? b]; [discriminate H|]). destruct b; [|discriminate H]. destruct sa, sp; cbn; rewrite ?lo8_u16le, ?hi8_u16le; reflexivity. Qed.

(** ** Pointer calls, any length *)

Lemma splice_len : forall (l d : list byte) b n, 0 <= b -> zlen d = n -> b + n <= zlen l -> zlen (splice l b d) = zlen l.
Proof. intros. apply zlen_splice; lia. Qed.
Lemma slice_splice : forall (l d : list byte) b n, 0 <= b -> zlen d = n -> b + n <= zlen l -> slice (splice l b d) b n = d.
Proof.
  intros l d b n Hb Hd Hl. unfold slice, splice, zlen in *.
  rewrite skipn_app, skipn_all2 by (rewrite firstn_length; lia). rewrite firstn_length.
  replace (Z.to_nat b - Nat.min (Z.to_nat b) (List.length l))%nat with O by lia. cbn [skipn app].
  rewrite firstn_app. replace (Z.to_nat n) with (List.length d) by lia. rewrite firstn_all, Nat.sub_diag. apply app_nil_r.
Qed.
Lemma splice_frame : forall (l d : list byte) b n i, 0 <= b -> zlen d = n -> b + n <= zlen l -> 0 <= i < b \/ b + n <= i < zlen l ->
  znth (splice l b d) i = znth l i.
Proof. intros l d b n i ? ? ? ?. pose proof (zlen_nonneg _ d). rewrite znth_splice by lia. destruct (_ && _) eqn:E; [lia|reflexivity]. Qed.

Lemma bc1_call : forall c s inp aux out a b len, cpu_ok c -> (c_debug c = true -> split_colour_endpoints s = true -> 0 < len) -> 
  len mod 8 = 0 -> 0 <= len -> 0 <= a -> 0 <= b -> a + len <= zlen inp -> b + len <= zlen out ->
  transform_bc1_with_settings c (Ptr BIn a) (Ptr BOut b) len s (Mem inp aux out) =
  Ok (Mem inp aux (splice out b (bc1_layout (decorrelation_mode s) (split_colour_endpoints s) (slice inp a len)))).
Proof.
  intros c s inp aux out a b len K HD Hm Hl Ha Hb Hi Ho.
  replace len with (8 * (len / 8)) by lia.
  exact (transform_bc1_ptr c s a b (len / 8) (Mem inp aux out) K ltac:(intros H1 H2; specialize (HD H2 H1); lia) Ha Hb ltac:(lia) ltac:(cbn [m_in]; lia) ltac:(cbn [m_out]; lia)).
Qed.
Lemma bc1_slice : forall c s x out, cpu_ok c -> (c_debug c = true -> split_colour_endpoints s = true -> x <> []) -> 
  zlen x mod 8 = 0 -> zlen x <= zlen out ->
  transform_bc1 c s x out = Ok (ROk tt, bc1_layout (decorrelation_mode s) (split_colour_endpoints s) x ++ skipn (List.length x) out).
Proof.
  intros c s x out K HD Hm Ho. unfold transform_bc1, checked.
  replace (zlen x mod 8 =? 0) with true by lia. cbn [negb]. replace (zlen out <? zlen x) with false by lia.
  pose proof (bc1_call c s x [] out 0 0 (zlen x) K ltac:(intros H1 H2; specialize (HD H1 H2); destruct x; [congruence|unfold zlen; cbn [List.length]; lia]) Hm (zlen_nonneg _ x) ltac:(lia) ltac:(lia) ltac:(lia) ltac:(lia)) as E.
  rewrite E. cbn [bind m_out]. rewrite slice_all, splice_at_0.
  destruct (bc1_fam (decorrelation_mode s) (split_colour_endpoints s)) as (sht & shu & FM).
  unfold bc1_layout at 2. rewrite (fam_len _ _ _ _ _ _ FM) by (unfold zlen in Hm; lia). reflexivity.
Qed.

Lemma unbc1_call : forall c s inp aux out a b len, cpu_ok c -> (c_debug c = true -> split_colour_endpoints s = true -> 0 < len) -> 
  len mod 8 = 0 -> 0 <= len -> 0 <= a -> 0 <= b -> a + len <= zlen inp -> b + len <= zlen out ->
  exists y, untransform_bc1_with_settings c (Ptr BIn a) (Ptr BOut b) len s (Mem inp aux out) =
  Ok (Mem inp aux (splice out b y)) /\ zlen y = len /\ bc1_layout (decorrelation_mode s) (split_colour_endpoints s) y = slice inp a len.
Proof.
  intros c s inp aux out a b len K HD Hm Hl Ha Hb Hi Ho.
  replace len with (8 * (len / 8)) by lia.
  destruct (untransform_bc1_ptr c s a b (len / 8) (Mem inp aux out) K ltac:(intros H1 H2; specialize (HD H2 H1); lia) Ha Hb ltac:(lia) ltac:(cbn [m_in]; lia) ltac:(cbn [m_out]; lia)) as (y & E & L & Y).
  cbn [m_in m_aux m_out] in *. exists y. repeat apply conj; [exact E| |exact Y].
  pose proof (zlen_slice _ inp a (8 * (len / 8)) ltac:(lia) ltac:(lia) ltac:(lia)) as S. unfold zlen in *. lia.
Qed.
Lemma unbc1_slice : forall c s x out, cpu_ok c -> (c_debug c = true -> split_colour_endpoints s = true -> x <> []) -> 
  zlen x mod 8 = 0 -> zlen x <= zlen out ->
  exists y, untransform_bc1 c s x out = Ok (ROk tt, y ++ skipn (List.length x) out) /\ List.length y = List.length x /\ bc1_layout (decorrelation_mode s) (split_colour_endpoints s) y = x.
Proof.
  intros c s x out K HD Hm Ho. unfold untransform_bc1, checked.
  replace (zlen x mod 8 =? 0) with true by lia. cbn [negb]. replace (zlen out <? zlen x) with false by lia.
  destruct (unbc1_call c s x [] out 0 0 (zlen x) K ltac:(intros H1 H2; specialize (HD H1 H2); destruct x; [congruence|unfold zlen; cbn [List.length]; lia]) Hm (zlen_nonneg _ x) ltac:(lia) ltac:(lia) ltac:(lia) ltac:(lia)) as (y & E & L & Y).
  exists y. rewrite slice_all in Y. rewrite E. cbn [bind m_out]. rewrite splice_at_0.
  assert (LL : List.length y = List.length x) by (unfold zlen in L; lia). rewrite LL. auto.
Qed.

Lemma bc2_call : forall c s inp aux out a b len, cpu_ok c -> (c_avx512bw c = true -> c_avx512vl c = true) -> 
  len mod 16 = 0 -> 0 <= len -> 0 <= a -> 0 <= b -> a + len <= zlen inp -> b + len <= zlen out ->
  transform_bc2_with_settings c (Ptr BIn a) (Ptr BOut b) len s (Mem inp aux out) =
  Ok (Mem inp aux (splice out b (bc2_layout (decorrelation_mode s) (split_colour_endpoints s) (slice inp a len)))).
Proof.
  intros c s inp aux out a b len K VL Hm Hl Ha Hb Hi Ho.
  replace len with (16 * (len / 16)) by lia.
  assert (VLB : vl_ok c = true) by (unfold vl_ok; destruct (c_avx512bw c); [rewrite VL by reflexivity|]; reflexivity).
  exact (transform_bc2_ptr c s a b (len / 16) (Mem inp aux out) K Ha Hb ltac:(lia) ltac:(cbn [m_in]; lia) ltac:(cbn [m_out]; lia) VLB).
Qed.
Lemma bc2_slice : forall c s x out, cpu_ok c -> (c_avx512bw c = true -> c_avx512vl c = true) -> 
  zlen x mod 16 = 0 -> zlen x <= zlen out ->
  transform_bc2 c s x out = Ok (ROk tt, bc2_layout (decorrelation_mode s) (split_colour_endpoints s) x ++ skipn (List.length x) out).
Proof.
  intros c s x out K VL Hm Ho. unfold transform_bc2, checked.
  replace (zlen x mod 16 =? 0) with true by lia. cbn [negb]. replace (zlen out <? zlen x) with false by lia.
  pose proof (bc2_call c s x [] out 0 0 (zlen x) K VL Hm (zlen_nonneg _ x) ltac:(lia) ltac:(lia) ltac:(lia) ltac:(lia)) as E.
  rewrite E. cbn [bind m_out]. rewrite slice_all, splice_at_0.
  destruct (bc2_fam (decorrelation_mode s) (split_colour_endpoints s)) as (sht & shu & FM).
  unfold bc2_layout at 2. rewrite (fam_len _ _ _ _ _ _ FM) by (unfold zlen in Hm; lia). reflexivity.
Qed.

Lemma unbc2_call : forall c s inp aux out a b len, cpu_ok c -> 
  len mod 16 = 0 -> 0 <= len -> 0 <= a -> 0 <= b -> a + len <= zlen inp -> b + len <= zlen out ->
  exists y, untransform_bc2_with_settings c (Ptr BIn a) (Ptr BOut b) len s (Mem inp aux out) =
  Ok (Mem inp aux (splice out b y)) /\ zlen y = len /\ bc2_layout (decorrelation_mode s) (split_colour_endpoints s) y = slice inp a len.
Proof.
  intros c s inp aux out a b len K Hm Hl Ha Hb Hi Ho.
  replace len with (16 * (len / 16)) by lia.
  destruct (untransform_bc2_ptr c s a b (len / 16) (Mem inp aux out) K Ha Hb ltac:(lia) ltac:(cbn [m_in]; lia) ltac:(cbn [m_out]; lia)) as (y & E & L & Y).
  cbn [m_in m_aux m_out] in *. exists y. repeat apply conj; [exact E| |exact Y].
  pose proof (zlen_slice _ inp a (16 * (len / 16)) ltac:(lia) ltac:(lia) ltac:(lia)) as S. unfold zlen in *. lia.
Qed.
Lemma unbc2_slice : forall c s x out, cpu_ok c -> 
  zlen x mod 16 = 0 -> zlen x <= zlen out ->
  exists y, untransform_bc2 c s x out = Ok (ROk tt, y ++ skipn (List.length x) out) /\ List.length y = List.length x /\ bc2_layout (decorrelation_mode s) (split_colour_endpoints s) y = x.
Proof.
  intros c s x out K Hm Ho. unfold untransform_bc2, checked.
  replace (zlen x mod 16 =? 0) with true by lia. cbn [negb]. replace (zlen out <? zlen x) with false by lia.
  destruct (unbc2_call c s x [] out 0 0 (zlen x) K Hm (zlen_nonneg _ x) ltac:(lia) ltac:(lia) ltac:(lia) ltac:(lia)) as (y & E & L & Y).
  exists y. rewrite slice_all in Y. rewrite E. cbn [bind m_out]. rewrite splice_at_0.
  assert (LL : List.length y = List.length x) by (unfold zlen in L; lia). rewrite LL. auto.
Qed.

Lemma bc3_call : forall c s inp aux out a b len, cpu_ok c -> (c_debug c = true -> split_alpha_endpoints s = true -> 0 < len) -> 
  len mod 16 = 0 -> 0 <= len -> 0 <= a -> 0 <= b -> a + len <= zlen inp -> b + len <= zlen out ->
  transform_bc3_with_settings c (Ptr BIn a) (Ptr BOut b) len s (Mem inp aux out) =
  Ok (Mem inp aux (splice out b (bc3_layout (decorrelation_mode3 s) (split_alpha_endpoints s) (split_colour_endpoints3 s) (slice inp a len)))).
Proof.
  intros c s inp aux out a b len K HD Hm Hl Ha Hb Hi Ho.
  replace len with (16 * (len / 16)) by lia.
  exact (transform_bc3_ptr c s a b (len / 16) (Mem inp aux out) K ltac:(intros H1 H2; specialize (HD H2 H1); lia) Ha Hb ltac:(lia) ltac:(cbn [m_in]; lia) ltac:(cbn [m_out]; lia)).
Qed.
Lemma bc3_slice : forall c s x out, cpu_ok c -> (c_debug c = true -> split_alpha_endpoints s = true -> x <> []) -> 
  zlen x mod 16 = 0 -> zlen x <= zlen out ->
  transform_bc3 c s x out = Ok (ROk tt, bc3_layout (decorrelation_mode3 s) (split_alpha_endpoints s) (split_colour_endpoints3 s) x ++ skipn (List.length x) out).
Proof.
  intros c s x out K HD Hm Ho. unfold transform_bc3, checked.
  replace (zlen x mod 16 =? 0) with true by lia. cbn [negb]. replace (zlen out <? zlen x) with false by lia.
  pose proof (bc3_call c s x [] out 0 0 (zlen x) K ltac:(intros H1 H2; specialize (HD H1 H2); destruct x; [congruence|unfold zlen; cbn [List.length]; lia]) Hm (zlen_nonneg _ x) ltac:(lia) ltac:(lia) ltac:(lia) ltac:(lia)) as E.
  rewrite E. cbn [bind m_out]. rewrite slice_all, splice_at_0.
  destruct (bc3_fam (decorrelation_mode3 s) (split_alpha_endpoints s) (split_colour_endpoints3 s)) as (sht & shu & FM).
  unfold bc3_layout at 2. rewrite (fam_len _ _ _ _ _ _ FM) by (unfold zlen in Hm; lia). reflexivity.
Qed.

Lemma unbc3_call : forall c s inp aux out a b len, cpu_ok c -> (c_debug c = true -> split_alpha_endpoints s = true -> 0 < len) -> 
  len mod 16 = 0 -> 0 <= len -> 0 <= a -> 0 <= b -> a + len <= zlen inp -> b + len <= zlen out ->
  exists y, untransform_bc3_with_settings c (Ptr BIn a) (Ptr BOut b) len s (Mem inp aux out) =
  Ok (Mem inp aux (splice out b y)) /\ zlen y = len /\ bc3_layout (decorrelation_mode3 s) (split_alpha_endpoints s) (split_colour_endpoints3 s) y = slice inp a len.
Proof.
  intros c s inp aux out a b len K HD Hm Hl Ha Hb Hi Ho.
  replace len with (16 * (len / 16)) by lia.
  destruct (untransform_bc3_ptr c s a b (len / 16) (Mem inp aux out) K ltac:(intros H1 H2; specialize (HD H2 H1); lia) Ha Hb ltac:(lia) ltac:(cbn [m_in]; lia) ltac:(cbn [m_out]; lia)) as (y & E & L & Y).
  cbn [m_in m_aux m_out] in *. exists y. repeat apply conj; [exact E| |exact Y].
  pose proof (zlen_slice _ inp a (16 * (len / 16)) ltac:(lia) ltac:(lia) ltac:(lia)) as S. unfold zlen in *. lia.
Qed.
Lemma unbc3_slice : forall c s x out, cpu_ok c -> (c_debug c = true -> split_alpha_endpoints s = true -> x <> []) -> 
  zlen x mod 16 = 0 -> zlen x <= zlen out ->
  exists y, untransform_bc3 c s x out = Ok (ROk tt, y ++ skipn (List.length x) out) /\ List.length y = List.length x /\ bc3_layout (decorrelation_mode3 s) (split_alpha_endpoints s) (split_colour_endpoints3 s) y = x.
Proof.
  intros c s x out K HD Hm Ho. unfold untransform_bc3, checked.
  replace (zlen x mod 16 =? 0) with true by lia. cbn [negb]. replace (zlen out <? zlen x) with false by lia.
  destruct (unbc3_call c s x [] out 0 0 (zlen x) K ltac:(intros H1 H2; specialize (HD H1 H2); destruct x; [congruence|unfold zlen; cbn [List.length]; lia]) Hm (zlen_nonneg _ x) ltac:(lia) ltac:(lia) ltac:(lia) ltac:(lia)) as (y & E & L & Y).
  exists y. rewrite slice_all in Y. rewrite E. cbn [bind m_out]. rewrite splice_at_0.
  assert (LL : List.length y = List.length x) by (unfold zlen in L; lia). rewrite LL. auto.
Qed.

