(** Normalisation of blocks stored in parts. *)
From Verif Require Import Base.Bytes Base.Res Model.Color565 Model.Decode Model.Normalize Spec.Pixels Spec.Normalize
  Proofs.DecodeFacts Proofs.NormLoop Proofs.NormPixels Proofs.NormalizeFacts Proofs.NormalizeFacts2.
From Coq Require Import ZifyBool ZifyNat.

(** Replace the parts of block [k]. *)
Fixpoint put (m : list byte) (parts : list (Z * Z)) (k : Z) (ds : list (list byte)) : list byte :=
  match parts, ds with
  | (p, w) :: parts, d :: ds => put (splice m (p + w * k) d) parts k ds
  | _, _ => m
  end.

(** Part [j] of block [k]: where it is. *)
Definition fits (m : list byte) (k : Z) (parts : list (Z * Z)) : Prop :=
  (forall p w, In (p, w) parts -> 0 < w /\ 0 <= p + w * k /\ p + w * k + w <= zlen m) /\
  ForallOrdPairs (fun a b => fst a + snd a * k + snd a <= fst b + snd b * k \/ fst b + snd b * k + snd b <= fst a + snd a * k) parts.

Lemma parts_fit : forall m parts n k, parts_ok m parts n -> 0 <= k < n -> fits m k parts.
Proof.
  intros m parts n k [P1 P2] K. split.
  - intros p w I. destruct (P1 p w I) as [W [A [B C]]]. split; [exact W|]. nia.
  - induction parts as [|[p w] parts IH]; [apply List.FOP_nil|]. destruct (FOP_cons _ _ _ _ P2) as [Q1 Q2].
    apply List.FOP_cons; [|apply IH; [intros; apply P1; right; assumption|exact Q2]].
    rewrite Forall_forall in Q1 |- *. intros [p' w'] I. specialize (Q1 _ I). cbn [fst snd] in *.
    destruct (P1 p w (or_introl eq_refl)) as [W [A [B C]]]. destruct (P1 p' w' (or_intror I)) as [W' [A' [B' C']]].
    assert (w * k + w <= w * n) by nia. assert (0 <= w' * k) by nia. assert (w' * k + w' <= w' * n) by nia. assert (0 <= w * k) by nia. lia.
Qed.

Lemma put_ok : forall parts k ds m, fits m k parts -> Forall2 (fun (p : Z * Z) d => zlen d = snd p) parts ds ->
  zlen (put m parts k ds) = zlen m /\
  gather (put m parts k ds) parts k = List.concat ds /\
  (forall q, 0 <= q < zlen m -> (forall p w, In (p, w) parts -> ~ (p + w * k <= q < p + w * k + w)) -> znth (put m parts k ds) q = znth m q).
Proof.
  induction parts as [|[p w] parts IH]; intros k ds m [F1 F2] D.
  - inversion D; subst. split; [reflexivity|]. split; [reflexivity|]. reflexivity.
  - inversion D as [|? d ? ds' D1 D2]; subst. cbn [snd] in D1. cbn [put]. destruct (F1 p w (or_introl eq_refl)) as [W [A B]].
    destruct (FOP_cons _ _ _ _ F2) as [Q1 Q2]. rewrite Forall_forall in Q1.
    assert (L : zlen (splice m (p + w * k) d) = zlen m) by (apply zlen_splice; lia).
    destruct (IH k ds' (splice m (p + w * k) d)) as [I1 [I2 I3]].
    + split; [|exact Q2]. intros p' w' I. rewrite L. apply F1. right. exact I.
    + exact D2.
    + split; [lia|]. split.
      * unfold gather in *. cbn [flat_map List.concat]. rewrite I2. f_equal. apply znth_ext.
        -- rewrite zlen_slice by lia. lia.
        -- intros i I. rewrite zlen_slice in I by lia. rewrite znth_slice by lia. rewrite I3; [|lia|].
           ++ rewrite znth_splice by lia. replace ((p + w * k <=? p + w * k + i) && (p + w * k + i <? p + w * k + zlen d)) with true by lia. f_equal. lia.
           ++ intros p' w' J. specialize (Q1 _ J). cbn [fst snd] in Q1. destruct (F1 p' w' (or_intror J)) as [W' _]. lia.
      * intros q Q N. rewrite I3; [|lia|intros p' w' I; apply N; right; exact I]. specialize (N p w (or_introl eq_refl)).
        rewrite znth_splice by lia. replace ((p + w * k <=? q) && (q <? p + w * k + zlen d)) with false by lia. reflexivity.
Qed.

(** What the whole loop does when each iteration replaces the parts of its block. *)
Lemma split_result : forall parts r (F : list byte -> list byte) (cut : list byte -> list (list byte)) body m,
  (forall k m, 0 <= k < Z.of_nat r -> fits m k parts ->
     body k m = Ok (put m parts k (cut (gather m parts k)))) ->
  (forall b, zlen b = fold_right (fun p s => snd p + s) 0 parts -> Forall2 (fun (p : Z * Z) d => zlen d = snd p) parts (cut b) /\ List.concat (cut b) = F b) ->
  parts_ok m parts (Z.of_nat r) ->
  exists m', for_blocks r 0 body m = Ok m' /\ only_changes (map (fun '(p, w) => (p, w * Z.of_nat r)) parts) m m' /\
    forall k, 0 <= k < Z.of_nat r -> gather m' parts k = F (gather m parts k).
Proof.
  intros parts r F cut body m B C P.
  assert (GL : forall m k, fits m k parts -> zlen (gather m parts k) = fold_right (fun p s => snd p + s) 0 parts).
  { clear. intros m k [F1 _]. unfold gather. induction parts as [|[p w] parts IH]; [reflexivity|]. cbn [flat_map fold_right snd]. rewrite zlen_app.
    rewrite IH by (intros; apply F1; right; assumption). destruct (F1 p w (or_introl eq_refl)) as [W [X Y]]. rewrite zlen_slice by lia. reflexivity. }
  destruct (split_loop parts (Z.of_nat r) F body) with (r := r) (i := 0) (m := m) as [m' [E [L [G U]]]].
  - intros k m1 K P1. pose proof (parts_fit _ _ _ _ P1 K) as FT. destruct (C (gather m1 parts k) (GL _ _ FT)) as [C1 C2].
    destruct (put_ok parts k (cut (gather m1 parts k)) m1 FT C1) as [Q1 [Q2 Q3]].
    exists (put m1 parts k (cut (gather m1 parts k))). split; [apply B; assumption|]. split; [exact Q1|]. split; [rewrite Q2; exact C2|exact Q3].
  - lia.
  - lia.
  - exact P.
  - exists m'. split; [exact E|]. split; [|intros k K; apply G; lia]. split; [exact L|]. intros q Q N. apply U; [exact Q|].
    intros p w k I K. assert (IM : In (p, w * Z.of_nat r) (map (fun '(p, w) => (p, w * Z.of_nat r)) parts)).
    { change (p, w * Z.of_nat r) with ((fun '(p, w) => (p, w * Z.of_nat r)) (p, w)). apply in_map. exact I. }
    specialize (N _ _ IM). destruct P as [P1 _]. destruct (P1 p w I) as [W _]. nia.
Qed.

Lemma gather2 : forall m p1 w1 p2 w2 k, gather m [(p1, w1); (p2, w2)] k = slice m (p1 + w1 * k) w1 ++ slice m (p2 + w2 * k) w2.
Proof. intros. unfold gather. cbn [flat_map]. rewrite app_nil_r. reflexivity. Qed.
Lemma gather3 : forall m p1 w1 p2 w2 p3 w3 k, gather m [(p1, w1); (p2, w2); (p3, w3)] k =
  slice m (p1 + w1 * k) w1 ++ slice m (p2 + w2 * k) w2 ++ slice m (p3 + w3 * k) w3.
Proof. intros. unfold gather. cbn [flat_map]. rewrite app_nil_r. reflexivity. Qed.
Lemma gather4 : forall m p1 w1 p2 w2 p3 w3 p4 w4 k, gather m [(p1, w1); (p2, w2); (p3, w3); (p4, w4)] k =
  slice m (p1 + w1 * k) w1 ++ slice m (p2 + w2 * k) w2 ++ slice m (p3 + w3 * k) w3 ++ slice m (p4 + w4 * k) w4.
Proof. intros. unfold gather. cbn [flat_map]. rewrite app_nil_r. reflexivity. Qed.

Lemma slice_app1 : forall (a b : list byte) n, zlen a = n -> slice (a ++ b) 0 n = a.
Proof. intros a b n <-. unfold slice. cbn [skipn Z.to_nat]. unfold zlen. rewrite Nat2Z.id, firstn_app_short by lia. apply firstn_all. Qed.
Lemma slice_app2 : forall (a b : list byte) n q k, zlen a = n -> 0 <= q -> slice (a ++ b) (n + q) k = slice b q k.
Proof.
  intros a b n q k <- Q. unfold slice. f_equal. unfold zlen. replace (Z.to_nat (Z.of_nat (List.length a) + q)) with (List.length a + Z.to_nat q)%nat by lia.
  rewrite skipn_app. rewrite (skipn_all2 a) by lia. cbn [app]. f_equal. lia.
Qed.
Lemma slice_all' : forall (a : list byte) n, zlen a = n -> slice a 0 n = a.
Proof. intros a n H. rewrite <- (app_nil_r a) at 1. apply slice_app1. exact H. Qed.

Lemma slice_app2' : forall (a b : list byte) n k, zlen a = n -> zlen b = k -> slice (a ++ b) n k = b.
Proof. intros a b n k A B. replace n with (n + 0) by lia. rewrite slice_app2 by (exact A || lia). apply slice_all'. exact B. Qed.

(** ** BC1 *)
Definition cut2 (b : list byte) : list (list byte) := [slice b 0 4; slice b 4 4].
Definition bc1_F (mode : color_norm) (b : list byte) : list byte := match mode with CNone => b | _ => bc1_G mode b end.

Lemma cut2_ok : forall b p q, zlen b = 8 -> Forall2 (fun (p : Z * Z) d => zlen d = snd p) [(p, 4); (q, 4)] (cut2 b) /\ List.concat (cut2 b) = b.
Proof.
  intros b p q L. split.
  - unfold cut2. constructor; [cbn [snd]; apply zlen_slice; lia|]. constructor; [cbn [snd]; apply zlen_slice; lia|constructor].
  - unfold cut2. cbn [List.concat]. rewrite app_nil_r. rewrite <- slice_app_split by lia. apply slice_all'. exact L.
Qed.

Lemma bc1_F_normal : forall mode b, bc1_normal mode b (bc1_F mode b).
Proof. intros mode b. destruct mode; [left; auto| |]; apply bc1_G_normal; discriminate. Qed.

Lemma store2 : forall m p q (x y : list byte), 0 <= p -> p + zlen x <= zlen m -> 0 <= q -> q + zlen y <= zlen m ->
  (do m <- assign m p x ;; assign m q y) = Ok (splice (splice m p x) q y).
Proof.
  intros m p q x y A B C D. rewrite assign_ok by lia. cbn [bind]. apply assign_ok; [lia|]. rewrite zlen_splice by lia. lia.
Qed.

Lemma se_len : forall v s, zlen (solid_endpoints v s) = 4.
Proof. intros v s. destruct s; reflexivity. Qed.
Lemma zi_len : zlen zero_indices = 4.
Proof. reflexivity. Qed.

Lemma lC37_split : forall m colors indices n mode, parts_ok m [(colors, 4); (indices, 4)] (Z.of_nat n) ->
  exists m', bc1_normalize_split_blocks_in_place colors indices n mode m = Ok m' /\
    only_changes [(colors, 4 * Z.of_nat n); (indices, 4 * Z.of_nat n)] m m' /\
    forall k, 0 <= k < Z.of_nat n -> bc1_normal mode (gather m [(colors, 4); (indices, 4)] k) (gather m' [(colors, 4); (indices, 4)] k).
Proof.
  intros m colors indices n mode P. set (parts := [(colors, 4); (indices, 4)]) in *.
  unfold bc1_normalize_split_blocks_in_place. destruct (match mode with CNone => true | _ => false end) eqn:MD.
  - destruct mode; try discriminate MD. exists m. split; [reflexivity|]. split; [split; reflexivity|]. intros. left. auto.
  - match goal with |- context [for_blocks n 0 ?b m] => set (body := b) end.
    destruct (split_result parts n (bc1_G mode) (fun b => cut2 (bc1_G mode b)) body m) as [m' [E [OC G]]].
    + clear m P. intros k m K [F1 F2]. unfold parts in *.
      destruct (F1 colors 4 (or_introl eq_refl)) as [_ [C1 C2]]. destruct (F1 indices 4 (or_intror (or_introl eq_refl))) as [_ [I1 I2]].
      destruct (FOP_cons _ _ _ _ F2) as [AP _]. rewrite Forall_forall in AP. specialize (AP _ (or_introl eq_refl)). cbn [fst snd] in AP.
      rewrite gather2. unfold body. replace (colors + k * 4) with (colors + 4 * k) by lia. replace (indices + k * 4) with (indices + 4 * k) by lia.
      set (pc := colors + 4 * k) in *. set (pi := indices + 4 * k) in *.
      rewrite !load_ok by lia. cbn [bind]. set (c := slice m pc 4). set (i := slice m pi 4).
      assert (LC : zlen c = 4) by (apply zlen_slice; lia). assert (LI : zlen i = 4) by (apply zlen_slice; lia).
      pose proof (decode1 (c ++ i) 0 ltac:(lia) ltac:(rewrite zlen_app; lia)) as DEC. cbn [Z.to_nat skipn] in DEC.
      rewrite slice_all' in DEC by (rewrite zlen_app; lia). rewrite DEC. clear DEC. cbn [bind put].
      fold pc pi. unfold bc1_G, bc1_classify. set (px := nth 0 (picture bc1_pixel (c ++ i)) blank).
      assert (KEEP : Ok m = Ok (put m [(colors, 4); (indices, 4)] k (cut2 (c ++ i)))).
      { unfold cut2. cbn [put]. fold pc pi. rewrite slice_app1 by exact LC. rewrite (slice_app2' c i 4 4 LC LI). f_equal. unfold c. rewrite splice_slice by lia. unfold i. symmetry. apply splice_slice; lia. }
      destruct (has_identical_pixels (picture bc1_pixel (c ++ i))); [|destruct mode; [discriminate MD| |]; exact KEEP].
      destruct (c_a px =? 0).
      * assert (X : (do m <- fill m pc xff 4 ;; fill m pi xff 4) = Ok (put m [(colors, 4); (indices, 4)] k (cut2 (repeat xff 8)))).
        { rewrite fill_ok by lia. cbn [bind]. assert (LS : zlen (splice m pc (repeat xff 4)) = zlen m) by (apply zlen_splice; rewrite ?zlen_repeat; lia). rewrite fill_ok by lia. reflexivity. }
        destruct mode; [discriminate MD| |]; exact X.
      * destruct (color_eqb (to_8888_lossy (to_565_lossy px)) px); [|destruct mode; [discriminate MD| |]; exact KEEP].
        destruct mode; [discriminate MD| |]; rewrite store2 by (rewrite ?se_len, ?zi_len; lia); reflexivity.
    + intros b L. change (fold_right (fun p s => snd p + s) 0 parts) with 8 in L. apply cut2_ok. apply bc1_G_len. exact L.
    + exact P.
    + exists m'. split; [destruct mode; [discriminate MD|exact E|exact E]|]. split; [exact OC|]. intros k K. rewrite G by exact K. apply bc1_G_normal.
      destruct mode; discriminate.
Qed.

(** ** BC2 *)
Definition cut3 (b : list byte) : list (list byte) := [slice b 0 8; slice b 8 4; slice b 12 4].
Lemma cut3_ok : forall b p q r, zlen b = 16 -> Forall2 (fun (p : Z * Z) d => zlen d = snd p) [(p, 8); (q, 4); (r, 4)] (cut3 b) /\ List.concat (cut3 b) = b.
Proof.
  intros b p q r L. split.
  - unfold cut3. do 3 (constructor; [cbn [snd]; apply zlen_slice; lia|]). constructor.
  - unfold cut3. cbn [List.concat]. rewrite app_nil_r. replace (slice b 12 4) with (slice b (8 + 4) 4) by reflexivity. rewrite <- slice_app_split by lia.
    change (4 + 4) with 8. symmetry. apply halves. exact L.
Qed.

(** A colour part [c] after 8 bytes [a]. *)
Lemma cut_tail : forall (a c : list byte) q k, zlen a = 8 -> zlen c = 8 -> 0 <= q -> 0 <= k -> q + k <= 8 -> slice (a ++ c) (8 + q) k = slice c q k.
Proof. intros a c q k A C Q K L. apply slice_app2; assumption. Qed.

Lemma solid_cut : forall v s, (if s : bool then solid_bytes ReplicateColor v else solid_bytes Color0Only v) = solid_endpoints v s ++ zero_indices.
Proof. intros v s. destruct s; reflexivity. Qed.

Ltac pair_inj X := let A := fresh in let B := fresh in
  pose proof (f_equal fst X) as A; pose proof (f_equal snd X) as B; cbn [fst snd] in A, B; rewrite <- A, <- B; clear X A B.

Lemma lC38_split_bc2 : forall m alpha colors indices n mode, parts_ok m [(alpha, 8); (colors, 4); (indices, 4)] (Z.of_nat n) ->
  exists m', bc2_normalize_split_blocks_in_place alpha colors indices n mode m = Ok m' /\
    only_changes [(colors, 4 * Z.of_nat n); (indices, 4 * Z.of_nat n)] m m' /\
    forall k, 0 <= k < Z.of_nat n ->
      bc2_normal mode (gather m [(alpha, 8); (colors, 4); (indices, 4)] k) (gather m' [(alpha, 8); (colors, 4); (indices, 4)] k).
Proof.
  intros m alpha colors indices n mode P. set (parts := [(alpha, 8); (colors, 4); (indices, 4)]) in *.
  assert (GL : forall k, 0 <= k < Z.of_nat n -> zlen (gather m parts k) = 16).
  { intros k K. destruct (parts_fit _ _ _ _ P K) as [F1 _]. unfold parts in *.
    destruct (F1 alpha 8 (or_introl eq_refl)) as [_ [A1 A2]]. destruct (F1 colors 4 (or_intror (or_introl eq_refl))) as [_ [C1 C2]].
    destruct (F1 indices 4 (or_intror (or_intror (or_introl eq_refl)))) as [_ [I1 I2]].
    rewrite gather3. rewrite !zlen_app. rewrite !zlen_slice by lia. reflexivity. }
  unfold bc2_normalize_split_blocks_in_place. destruct (match mode with CNone => true | _ => false end) eqn:MD.
  - destruct mode; try discriminate MD. exists m. split; [reflexivity|]. split; [split; reflexivity|]. intros k K.
    exists (slice (gather m parts k) 8 8). split; [left; auto|]. apply halves. apply GL. exact K.
  - match goal with |- context [for_blocks n 0 ?b m] => set (body := b) end.
    destruct (split_result parts n (bc2_G mode) (fun b => cut3 (bc2_G mode b)) body m) as [m' [E [OC G]]].
    + clear m P GL. intros k m K [F1 F2]. unfold parts in *.
      destruct (F1 alpha 8 (or_introl eq_refl)) as [_ [A1 A2]]. destruct (F1 colors 4 (or_intror (or_introl eq_refl))) as [_ [C1 C2]].
      destruct (F1 indices 4 (or_intror (or_intror (or_introl eq_refl)))) as [_ [I1 I2]].
      rewrite gather3. unfold body. replace (alpha + k * 8) with (alpha + 8 * k) by lia.
      replace (colors + k * 4) with (colors + 4 * k) by lia. replace (indices + k * 4) with (indices + 4 * k) by lia.
      set (pa := alpha + 8 * k) in *. set (pc := colors + 4 * k) in *. set (pi := indices + 4 * k) in *.
      rewrite !load_ok by lia. cbn [bind]. set (a := slice m pa 8). set (c := slice m pc 4). set (i := slice m pi 4).
      assert (LA : zlen a = 8) by (apply zlen_slice; lia). assert (LC : zlen c = 4) by (apply zlen_slice; lia). assert (LI : zlen i = 4) by (apply zlen_slice; lia).
      assert (LCI : zlen (c ++ i) = 8) by (rewrite zlen_app; lia). assert (LB : zlen (a ++ c ++ i) = 16) by (rewrite zlen_app; lia).
      pose proof (decode2 (a ++ c ++ i) 0 ltac:(lia) ltac:(lia)) as DEC. cbn [Z.to_nat skipn] in DEC.
      rewrite slice_all' in DEC by lia. rewrite DEC. clear DEC. cbn [bind].
      unfold bc2_G. set (solid := solid_color (picture bc2_pixel (a ++ c ++ i))).
      assert (PUT : forall t, zlen t = 8 -> put m [(alpha, 8); (colors, 4); (indices, 4)] k (cut3 (slice (a ++ c ++ i) 0 8 ++ t)) =
          splice (splice m pc (slice t 0 4)) pi (slice t 4 4)).
      { intros t T. rewrite slice_app1 by exact LA. unfold cut3. cbn [put]. fold pa pc pi. rewrite slice_app1 by exact LA.
        change 12 with (8 + 4). rewrite cut_tail by lia. replace (slice (a ++ t) 8 4) with (slice (a ++ t) (8 + 0) 4) by reflexivity. rewrite cut_tail by lia.
        unfold a. rewrite splice_slice by lia. reflexivity. }
      assert (KEEP : Ok m = Ok (put m [(alpha, 8); (colors, 4); (indices, 4)] k (cut3 (bc2_write None mode (a ++ c ++ i))))).
      { f_equal. unfold bc2_write, colour_write. rewrite PUT by (apply zlen_slice; lia). rewrite (slice_app2' a (c ++ i) 8 8 LA LCI).
        rewrite slice_app1 by exact LC. rewrite (slice_app2' c i 4 4 LC LI). unfold c. rewrite splice_slice by lia. unfold i. rewrite splice_slice by lia. reflexivity. }
      destruct solid as [v|]; [|exact KEEP].
      destruct mode; [discriminate MD| |]; rewrite store2 by (rewrite ?se_len, ?zi_len; lia);
        unfold bc2_write, colour_write; rewrite PUT by apply solid_len; reflexivity.
    + intros b L. change (fold_right (fun p s => snd p + s) 0 parts) with 16 in L. apply cut3_ok. apply bc2_G_len. exact L.
    + exact P.
    + exists m'. split; [destruct mode; [discriminate MD|exact E|exact E]|]. split.
      * split; [apply OC|]. intros q Q N. destruct (Z.lt_ge_cases q alpha) as [Q1|Q1]; [apply OC; [exact Q|]|].
        { intros p w [X|[X|[X|[]]]]; pair_inj X; [lia|apply N; left; reflexivity|apply N; right; left; reflexivity]. }
        destruct (Z.lt_ge_cases q (alpha + 8 * Z.of_nat n)) as [Q2|Q2].
        2:{ apply OC; [exact Q|]. intros p w [X|[X|[X|[]]]]; pair_inj X; [lia|apply N; left; reflexivity|apply N; right; left; reflexivity]. }
        set (k := (q - alpha) / 8). assert (K : 0 <= k < Z.of_nat n) by (unfold k; lia).
        pose proof (G k K) as GK. assert (HD : slice (gather m' parts k) 0 8 = slice (gather m parts k) 0 8).
        { rewrite GK. unfold bc2_G, bc2_write. rewrite slice_app1; [reflexivity|]. apply zlen_slice; [lia|lia|]. rewrite GL by exact K. lia. }
        destruct (parts_fit _ _ _ _ P K) as [F1 _]. unfold parts in F1. destruct (F1 alpha 8 (or_introl eq_refl)) as [_ [A1 A2]].
        assert (ZL : zlen m' = zlen m) by apply OC.
        unfold parts in HD. rewrite !gather3 in HD. rewrite (slice_app1 (slice m (alpha + 8 * k) 8)) in HD by (apply zlen_slice; lia). rewrite (slice_app1 (slice m' (alpha + 8 * k) 8)) in HD by (apply zlen_slice; lia).
        assert (X : znth (slice m' (alpha + 8 * k) 8) (q - alpha - 8 * k) = znth (slice m (alpha + 8 * k) 8) (q - alpha - 8 * k)) by (rewrite HD; reflexivity).
        rewrite !znth_slice in X by (unfold k in *; lia). replace (alpha + 8 * k + (q - alpha - 8 * k)) with q in X by lia. exact X.
      * intros k K. rewrite G by exact K. apply bc2_G_normal.
Qed.

(** ** BC3 *)
Definition cut4 (b : list byte) : list (list byte) := [slice b 0 2; slice b 2 6; slice b 8 4; slice b 12 4].
Lemma cut4_ok : forall b p q r s, zlen b = 16 ->
  Forall2 (fun (p : Z * Z) d => zlen d = snd p) [(p, 2); (q, 6); (r, 4); (s, 4)] (cut4 b) /\ List.concat (cut4 b) = b.
Proof.
  intros b p q r s L. split.
  - unfold cut4. do 4 (constructor; [cbn [snd]; apply zlen_slice; lia|]). constructor.
  - unfold cut4. cbn [List.concat]. rewrite app_nil_r. replace (slice b 12 4) with (slice b (8 + 4) 4) by reflexivity. rewrite <- slice_app_split by lia.
    change (4 + 4) with 8. replace (slice b 2 6) with (slice b (0 + 2) 6) by reflexivity. rewrite app_assoc. rewrite <- slice_app_split by lia.
    change (2 + 6) with 8. symmetry. apply halves. exact L.
Qed.

Lemma alpha_in_place_ok : forall m e i a mode, 0 <= e -> e + 2 <= zlen m -> 0 <= i -> i + 6 <= zlen m -> mode <> ANone ->
  normalize_alpha_in_place mode e i a m = Ok (splice (splice m e (slice (alpha_bytes mode a) 0 2)) i (slice (alpha_bytes mode a) 2 6)).
Proof.
  intros m e i a mode E1 E2 I1 I2 M. rewrite alpha_bytes_eq. unfold normalize_alpha_in_place.
  assert (UA : uniform_alpha_in_place e i a m = Ok (splice (splice m e [z2b a; x00]) i (repeat x00 6))).
  { unfold uniform_alpha_in_place. assert (L : zlen [z2b a; x00] = 2) by reflexivity. rewrite assign_ok by lia. cbn [bind]. apply fill_ok; [lia|]. rewrite zlen_splice by lia. lia. }
  destruct mode; [congruence| | |].
  - exact UA.
  - destruct (a =? 255); [|exact UA]. rewrite fill_ok by lia. cbn [bind]. rewrite fill_ok; [reflexivity|lia|]. rewrite zlen_splice by (rewrite ?zlen_repeat; lia). lia.
  - destruct (a =? 255); [|exact UA]. assert (L : zlen [x00; x00] = 2) by reflexivity. rewrite assign_ok by lia. cbn [bind].
    rewrite fill_ok; [reflexivity|lia|]. rewrite zlen_splice by lia. lia.
Qed.

Lemma solid_color_alpha : forall pixels, solid_color pixels =
  if has_identical_pixels_ignore_alpha pixels then
    let p := with_alpha (nth 0 pixels blank) 255 in
    if color_eqb (to_8888_lossy (to_565_lossy p)) p then Some (to_565_lossy p) else None
  else None.
Proof. reflexivity. Qed.

Lemma lC38_split_bc3 : forall m ae ai ce ci n amode cmode, parts_ok m [(ae, 2); (ai, 6); (ce, 4); (ci, 4)] (Z.of_nat n) ->
  exists m', bc3_normalize_split_blocks_in_place ae ai ce ci n amode cmode m = Ok m' /\
    only_changes [(ae, 2 * Z.of_nat n); (ai, 6 * Z.of_nat n); (ce, 4 * Z.of_nat n); (ci, 4 * Z.of_nat n)] m m' /\
    forall k, 0 <= k < Z.of_nat n ->
      bc3_normal amode cmode (gather m [(ae, 2); (ai, 6); (ce, 4); (ci, 4)] k) (gather m' [(ae, 2); (ai, 6); (ce, 4); (ci, 4)] k).
Proof.
  intros m ae ai ce ci n amode cmode P. set (parts := [(ae, 2); (ai, 6); (ce, 4); (ci, 4)]) in *.
  assert (GL : forall k, 0 <= k < Z.of_nat n -> zlen (gather m parts k) = 16).
  { intros k K. destruct (parts_fit _ _ _ _ P K) as [F1 _]. unfold parts in *.
    destruct (F1 ae 2 (or_introl eq_refl)) as [_ [A1 A2]]. destruct (F1 ai 6 (or_intror (or_introl eq_refl))) as [_ [B1 B2]].
    destruct (F1 ce 4 (or_intror (or_intror (or_introl eq_refl)))) as [_ [C1 C2]]. destruct (F1 ci 4 (or_intror (or_intror (or_intror (or_introl eq_refl))))) as [_ [I1 I2]].
    rewrite gather4. rewrite !zlen_app. rewrite !zlen_slice by lia. reflexivity. }
  unfold bc3_normalize_split_blocks_in_place. destruct (match amode, cmode with ANone, CNone => true | _, _ => false end) eqn:MD.
  - destruct amode, cmode; try discriminate MD. exists m. split; [reflexivity|]. split; [split; reflexivity|]. intros k K.
    exists (slice (gather m parts k) 0 8), (slice (gather m parts k) 8 8). split; [left; auto|]. split; [left; auto|]. apply halves. apply GL. exact K.
  - match goal with |- context [for_blocks n 0 ?b m] => set (body := b) end.
    destruct (split_result parts n (bc3_G (amode, cmode)) (fun b => cut4 (bc3_G (amode, cmode) b)) body m) as [m' [E [OC G]]].
    + clear m P GL. intros k m K [F1 F2]. unfold parts in *.
      destruct (F1 ae 2 (or_introl eq_refl)) as [_ [A1 A2]]. destruct (F1 ai 6 (or_intror (or_introl eq_refl))) as [_ [B1 B2]].
      destruct (F1 ce 4 (or_intror (or_intror (or_introl eq_refl)))) as [_ [C1 C2]]. destruct (F1 ci 4 (or_intror (or_intror (or_intror (or_introl eq_refl))))) as [_ [I1 I2]].
      destruct (FOP_cons _ _ _ _ F2) as [AP1 F3]. rewrite Forall_forall in AP1. destruct (FOP_cons _ _ _ _ F3) as [AP2 _]. rewrite Forall_forall in AP2.
      pose proof (AP1 _ (or_intror (or_introl eq_refl))) as Eec. pose proof (AP1 _ (or_intror (or_intror (or_introl eq_refl)))) as Eei.
      pose proof (AP2 _ (or_introl eq_refl)) as Eac. pose proof (AP2 _ (or_intror (or_introl eq_refl))) as Eai. cbn [fst snd] in Eec, Eei, Eac, Eai. clear AP1 AP2 F2 F3 F1.
      rewrite gather4. unfold body. replace (ae + k * 2) with (ae + 2 * k) by lia. replace (ai + k * 6) with (ai + 6 * k) by lia.
      replace (ce + k * 4) with (ce + 4 * k) by lia. replace (ci + k * 4) with (ci + 4 * k) by lia.
      set (pe := ae + 2 * k) in *. set (pa := ai + 6 * k) in *. set (pc := ce + 4 * k) in *. set (pi := ci + 4 * k) in *.
      rewrite !load_ok by lia. cbn [bind]. set (e := slice m pe 2). set (a := slice m pa 6). set (c := slice m pc 4). set (i := slice m pi 4).
      assert (LE : zlen e = 2) by (apply zlen_slice; lia). assert (LA : zlen a = 6) by (apply zlen_slice; lia).
      assert (LC : zlen c = 4) by (apply zlen_slice; lia). assert (LI : zlen i = 4) by (apply zlen_slice; lia).
      assert (LCI : zlen (c ++ i) = 8) by (rewrite zlen_app; lia). assert (LEA : zlen (e ++ a) = 8) by (rewrite zlen_app; lia).
      replace (e ++ a ++ c ++ i) with ((e ++ a) ++ (c ++ i)) by (rewrite <- app_assoc; reflexivity). set (b := (e ++ a) ++ (c ++ i)).
      assert (LB : zlen b = 16) by (unfold b; rewrite zlen_app; lia).
      pose proof (decode3 b 0 ltac:(lia) ltac:(lia)) as DEC. cbn [Z.to_nat skipn] in DEC.
      rewrite slice_all' in DEC by lia. rewrite DEC. clear DEC. cbn [bind].
      unfold bc3_G. set (pix := picture bc3_pixel b). fold (uniform_of pix). set (u := uniform_of pix). set (solid := solid_color pix).
      assert (PUT : forall s t, zlen s = 8 -> zlen t = 8 -> put m [(ae, 2); (ai, 6); (ce, 4); (ci, 4)] k (cut4 (s ++ t)) =
          splice (splice (splice (splice m pe (slice s 0 2)) pa (slice s 2 6)) pc (slice t 0 4)) pi (slice t 4 4)).
      { intros s t S T. unfold cut4. cbn [put]. fold pe pa pc pi.
        assert (HD : forall q w, 0 <= q -> 0 <= w -> q + w <= 8 -> slice (s ++ t) q w = slice s q w).
        { intros q w Q W QW. apply znth_ext; [rewrite !zlen_slice by (rewrite ?zlen_app; lia); reflexivity|].
          intros j J. rewrite zlen_slice in J by (rewrite ?zlen_app; lia). rewrite !znth_slice by lia. apply znth_app1. lia. }
        rewrite !HD by lia. change 12 with (8 + 4). rewrite cut_tail by lia.
        replace (slice (s ++ t) 8 4) with (slice (s ++ t) (8 + 0) 4) by reflexivity. rewrite cut_tail by lia. reflexivity. }
      unfold bc3_write. cbn [fst snd].
      pose proof (alpha_write_len u amode b LB) as AWL. rewrite PUT by (exact AWL || (apply colour_write_len; exact LB)).
      match goal with |- bind ?x _ = _ => replace x with (Ok (splice (splice m pe (slice (alpha_write u amode b) 0 2)) pa (slice (alpha_write u amode b) 2 6))) end.
      2:{ assert (KEEP : Ok (splice (splice m pe (slice (slice b 0 8) 0 2)) pa (slice (slice b 0 8) 2 6)) = Ok m).
          { unfold b. rewrite slice_app1 by exact LEA. rewrite slice_app1 by exact LE. rewrite (slice_app2' e a 2 6 LE LA). unfold e. rewrite splice_slice by lia. unfold a. rewrite splice_slice by lia. reflexivity. }
          unfold alpha_write, u, uniform_of. destruct (has_identical_alpha pix); [|destruct amode; exact KEEP].
          destruct amode; [exact KEEP| | |]; rewrite alpha_in_place_ok by (lia || discriminate); reflexivity. }
      cbn [bind]. set (m1 := splice (splice m pe (slice (alpha_write u amode b) 0 2)) pa (slice (alpha_write u amode b) 2 6)).
      assert (LS0 : zlen (slice (alpha_write u amode b) 0 2) = 2) by (apply zlen_slice; lia).
      assert (LS1 : zlen (slice (alpha_write u amode b) 2 6) = 6) by (apply zlen_slice; lia).
      assert (L0 : zlen (splice m pe (slice (alpha_write u amode b) 0 2)) = zlen m) by (apply zlen_splice; lia).
      assert (L1 : zlen m1 = zlen m) by (unfold m1; rewrite zlen_splice by lia; exact L0).
      assert (KEEP : Ok m1 = Ok (splice (splice m1 pc (slice (slice b 8 8) 0 4)) pi (slice (slice b 8 8) 4 4))).
      { f_equal. unfold b. rewrite (slice_app2' _ (c ++ i) 8 8 LEA LCI). rewrite slice_app1 by exact LC. rewrite (slice_app2' c i 4 4 LC LI).
        assert (X : c = slice m1 pc 4). { unfold m1. rewrite slice_splice_apart by lia. rewrite slice_splice_apart by lia. reflexivity. }
        assert (Y : i = slice m1 pi 4). { unfold m1. rewrite slice_splice_apart by lia. rewrite slice_splice_apart by lia. reflexivity. }
        rewrite X. rewrite splice_slice by lia. rewrite Y. rewrite splice_slice by lia. reflexivity. }
      unfold colour_write, solid. rewrite solid_color_alpha. 
      destruct (has_identical_pixels_ignore_alpha pix); [|destruct cmode; exact KEEP].
      cbv zeta. destruct (color_eqb (to_8888_lossy (to_565_lossy (with_alpha (nth 0 pix blank) 255))) (with_alpha (nth 0 pix blank) 255)); [|destruct cmode; exact KEEP].
      destruct cmode; [exact KEEP| |]; rewrite store2 by (rewrite ?se_len, ?zi_len; lia); reflexivity.
    + intros b L. change (fold_right (fun p s => snd p + s) 0 parts) with 16 in L. apply cut4_ok. apply bc3_G_len. exact L.
    + exact P.
    + exists m'. split; [destruct amode, cmode; try discriminate MD; exact E|]. split; [exact OC|]. intros k K. rewrite G by exact K. apply bc3_G_normal. apply GL. exact K.
Qed.
