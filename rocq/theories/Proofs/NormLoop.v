(** Memory and loops of the normalisation functions. *)
From Verif Require Import Base.Bytes Base.Res Model.Normalize Spec.Normalize.
From Coq Require Import ZifyBool ZifyNat.

(** ** Memory *)

Lemma load_ok : forall m p n, 0 <= p -> p + n <= zlen m -> load m p n = Ok (slice m p n).
Proof. intros. unfold load. replace ((0 <=? p) && (p + n <=? zlen m)) with true by lia. reflexivity. Qed.
Lemma store_ok : forall m p d, 0 <= p -> p + zlen d <= zlen m -> store m p d = Ok (splice m p d).
Proof. intros. unfold store. replace ((0 <=? p) && (p + zlen d <=? zlen m)) with true by lia. reflexivity. Qed.

Lemma splice_nil : forall (m : list byte) p, 0 <= p -> p <= zlen m -> splice m p [] = m.
Proof.
  intros m p H1 H2. apply znth_ext.
  - apply zlen_splice; [lia|]. change (zlen (@nil byte)) with 0. lia.
  - intros i Hi. rewrite zlen_splice in Hi by (change (zlen (@nil byte)) with 0; lia).
    rewrite znth_splice by (change (zlen (@nil byte)) with 0; lia). change (zlen (@nil byte)) with 0.
    replace ((p <=? i) && (i <? p + 0)) with false by lia. reflexivity.
Qed.

Lemma splice_splice : forall (m : list byte) p a b, 0 <= p -> p + zlen a + zlen b <= zlen m ->
  splice (splice m p a) (p + zlen a) b = splice m p (a ++ b).
Proof.
  intros m p a b H1 H2. pose proof (zlen_nonneg _ a) as A. pose proof (zlen_nonneg _ b) as B.
  apply znth_ext.
  - rewrite !zlen_splice; rewrite ?zlen_app, ?zlen_splice; lia.
  - intros i Hi. rewrite !zlen_splice in Hi by (rewrite ?zlen_splice by lia; lia).
    rewrite !znth_splice by (rewrite ?zlen_app, ?zlen_splice by lia; lia). rewrite zlen_app.
    destruct ((p + zlen a <=? i) && (i <? p + zlen a + zlen b)) eqn:E1.
    + replace ((p <=? i) && (i <? p + (zlen a + zlen b))) with true by lia.
      rewrite znth_app2 by lia. f_equal. lia.
    + destruct ((p <=? i) && (i <? p + zlen a)) eqn:E2.
      * replace ((p <=? i) && (i <? p + (zlen a + zlen b))) with true by lia. rewrite znth_app1 by lia. reflexivity.
      * replace ((p <=? i) && (i <? p + (zlen a + zlen b))) with false by lia. reflexivity.
Qed.

Lemma assign_ok : forall d m p, 0 <= p -> p + zlen d <= zlen m -> assign m p d = Ok (splice m p d).
Proof.
  induction d as [|b d IH]; intros m p H1 H2; cbn [assign].
  - rewrite splice_nil; [reflexivity|lia|]. change (zlen (@nil byte)) with 0 in H2. lia.
  - rewrite zlen_cons in H2. pose proof (zlen_nonneg _ d) as D.
    rewrite store_ok by (change (zlen [b]) with 1; lia). cbn [bind].
    rewrite IH by (rewrite ?zlen_splice by (change (zlen [b]) with 1; lia); lia).
    f_equal. change (p + 1) with (p + zlen [b]). rewrite splice_splice by (change (zlen [b]) with 1; lia). reflexivity.
Qed.

Lemma zlen_repeat : forall A (x : A) n, zlen (repeat x n) = Z.of_nat n.
Proof. intros. unfold zlen. rewrite repeat_length. reflexivity. Qed.

Lemma fill_ok : forall m p b n, 0 <= p -> p + Z.of_nat n <= zlen m -> fill m p b n = Ok (splice m p (repeat b n)).
Proof. intros. unfold fill. apply store_ok; [lia|]. rewrite zlen_repeat. lia. Qed.

Lemma copy8_ok : forall m src dst, 0 <= src -> src + 8 <= zlen m -> 0 <= dst -> dst + 8 <= zlen m ->
  copy8 m src dst = Ok (splice m dst (slice m src 8)).
Proof.
  intros m src dst H1 H2 H3 H4. unfold copy8. rewrite load_ok by lia. cbn [bind]. apply store_ok; [lia|].
  rewrite zlen_slice by lia. lia.
Qed.

Lemma slice_splice_apart : forall (m : list byte) p d q n, 0 <= p -> p + zlen d <= zlen m -> 0 <= q -> 0 <= n -> q + n <= zlen m ->
  p + zlen d <= q \/ q + n <= p -> slice (splice m p d) q n = slice m q n.
Proof.
  intros m p d q n H1 H2 H3 H4 H5 H6. pose proof (zlen_splice _ m p d H1 H2) as ZL. apply znth_ext.
  - rewrite !zlen_slice by lia. reflexivity.
  - intros i Hi. rewrite zlen_slice in Hi by lia. rewrite !znth_slice by lia. rewrite znth_splice by lia.
    replace ((p <=? q + i) && (q + i <? p + zlen d)) with false by lia. reflexivity.
Qed.

Lemma slice_splice_same : forall (m : list byte) p d, 0 <= p -> p + zlen d <= zlen m -> slice (splice m p d) p (zlen d) = d.
Proof.
  intros m p d H1 H2. pose proof (zlen_splice _ m p d H1 H2) as ZL. pose proof (zlen_nonneg _ d) as D. apply znth_ext.
  - rewrite zlen_slice by lia. reflexivity.
  - intros i Hi. rewrite zlen_slice in Hi by lia. rewrite znth_slice by lia. rewrite znth_splice by lia.
    replace ((p <=? p + i) && (p + i <? p + zlen d)) with true by lia. f_equal. lia.
Qed.

Lemma slice_splice_same' : forall (m : list byte) p d n, 0 <= p -> p + zlen d <= zlen m -> zlen d = n -> slice (splice m p d) p n = d.
Proof. intros m p d n H1 H2 <-. apply slice_splice_same; assumption. Qed.

Lemma splice_slice : forall (m : list byte) p n, 0 <= p -> 0 <= n -> p + n <= zlen m -> splice m p (slice m p n) = m.
Proof.
  intros m p n H1 H2 H3. assert (L : zlen (slice m p n) = n) by (apply zlen_slice; lia). apply znth_ext.
  - apply zlen_splice; lia.
  - intros i Hi. rewrite zlen_splice in Hi by lia. rewrite znth_splice by lia. rewrite L.
    destruct ((p <=? i) && (i <? p + n)) eqn:E; [|reflexivity]. rewrite znth_slice by lia. f_equal. lia.
Qed.

(** ** Writing several areas *)

Definition writes (m m' : list byte) (regs : list (Z * list byte)) : Prop :=
  zlen m' = zlen m /\
  (forall p d j, In (p, d) regs -> 0 <= j < zlen d -> znth m' (p + j) = znth d j) /\
  (forall q, 0 <= q < zlen m -> (forall p d, In (p, d) regs -> ~ (p <= q < p + zlen d)) -> znth m' q = znth m q).

Lemma splice_writes : forall m p d, 0 <= p -> p + zlen d <= zlen m -> writes m (splice m p d) [(p, d)].
Proof.
  intros m p d H1 H2. split; [apply zlen_splice; lia|]. split.
  - intros p' d' j [E|[]] J. injection E as <- <-. rewrite znth_splice by lia.
    replace ((p <=? p + j) && (p + j <? p + zlen d)) with true by lia. f_equal. lia.
  - intros q Q N. rewrite znth_splice by lia. pose proof (N p d (or_introl eq_refl)) as N'.
    replace ((p <=? q) && (q <? p + zlen d)) with false by lia. reflexivity.
Qed.

Lemma writes_nil : forall m, writes m m [].
Proof. intros m. split; [reflexivity|]. split; [intros p d j []|]. reflexivity. Qed.

(** A first write, then writes elsewhere. *)
Lemma writes_cons : forall m p d m' regs, 0 <= p -> p + zlen d <= zlen m -> writes (splice m p d) m' regs ->
  (forall q e, In (q, e) regs -> p + zlen d <= q \/ q + zlen e <= p) -> writes m m' ((p, d) :: regs).
Proof.
  intros m p d m' regs H1 H2 [L [W U]] AP. pose proof (zlen_splice _ m p d H1 H2) as ZL. split; [lia|]. split.
  - intros p' d' j [E|I] J.
    + injection E as <- <-. rewrite U.
      * rewrite znth_splice by lia. replace ((p <=? p + j) && (p + j <? p + zlen d)) with true by lia. f_equal. lia.
      * lia.
      * intros q e I. pose proof (AP q e I) as A. pose proof (zlen_nonneg _ e). lia.
    + apply W; assumption.
  - intros q Q N. rewrite U.
    + rewrite znth_splice by lia. pose proof (N p d (or_introl eq_refl)) as N'.
      replace ((p <=? q) && (q <? p + zlen d)) with false by lia. reflexivity.
    + lia.
    + intros p' d' I. apply N. right. exact I.
Qed.

Lemma writes_slice : forall m m' regs p d, writes m m' regs -> In (p, d) regs -> 0 <= p -> p + zlen d <= zlen m -> slice m' p (zlen d) = d.
Proof.
  intros m m' regs p d [L [W U]] I H1 H2. pose proof (zlen_nonneg _ d) as D. apply znth_ext.
  - rewrite zlen_slice by lia. reflexivity.
  - intros i Hi. rewrite zlen_slice in Hi by lia. rewrite znth_slice by lia. apply W; [exact I|lia].
Qed.

Lemma writes_keep : forall m m' regs q n, writes m m' regs -> 0 <= q -> 0 <= n -> q + n <= zlen m ->
  (forall p d, In (p, d) regs -> p + zlen d <= q \/ q + n <= p) -> slice m' q n = slice m q n.
Proof.
  intros m m' regs q n [L [W U]] H1 H2 H3 AP. apply znth_ext.
  - rewrite !zlen_slice by lia. reflexivity.
  - intros i Hi. rewrite zlen_slice in Hi by lia. rewrite !znth_slice by lia. apply U; [lia|].
    intros p d I. pose proof (AP p d I). lia.
Qed.

Lemma FOP_app_in : forall A (R : A -> A -> Prop) l x y, ForallOrdPairs R l -> In x l -> In y l -> x = y \/ R x y \/ R y x.
Proof. intros A R l x y H Hx Hy. destruct (ForallOrdPairs_In H x y Hx Hy) as [E|[E|E]]; auto. Qed.

Lemma FOP_map : forall A B (f : A -> B) (R : A -> A -> Prop) (R' : B -> B -> Prop) l,
  (forall x y, R x y -> R' (f x) (f y)) -> ForallOrdPairs R l -> ForallOrdPairs R' (map f l).
Proof.
  intros A B f R R' l H F. induction F as [|a l Ha F IH]; [constructor|]. cbn [map]. constructor; [|exact IH].
  apply Forall_forall. intros y Hy. apply in_map_iff in Hy. destruct Hy as [x [<- Hx]]. apply H.
  rewrite Forall_forall in Ha. apply Ha. exact Hx.
Qed.

Lemma FOP_impl : forall A (R R' : A -> A -> Prop) l, (forall x y, R x y -> R' x y) -> ForallOrdPairs R l -> ForallOrdPairs R' l.
Proof.
  intros A R R' l H F. rewrite <- (map_id l). revert F. apply FOP_map. exact H.
Qed.

Lemma FOP_cons : forall A (R : A -> A -> Prop) a l, ForallOrdPairs R (a :: l) -> Forall (R a) l /\ ForallOrdPairs R l.
Proof. intros A R a l H. inversion H as [|? ? H1 H2]. split; assumption. Qed.

(** ** The block loop *)
Section LOOP.
Context {A : Type}.
Variable size : Z.
Hypothesis size_pos : 0 < size.
Variable G : A -> list byte -> list byte.
Hypothesis G_len : forall a b, zlen b = size -> zlen (G a b) = size.
Variable N : list byte -> bool.
Variable inplace : A -> bool.
Variable body : Z -> nst -> res nst.

Definition place (len src : Z) (x : A * Z) : Prop := snd x = src /\ inplace (fst x) = true \/ apart len (snd x) src.
Definition valid (m : list byte) (len src : Z) (ps : list (A * Z)) : Prop :=
  0 <= src /\ src + len <= zlen m /\
  (forall x, In x ps -> 0 <= snd x /\ snd x + len <= zlen m /\ place len src x) /\
  ForallOrdPairs (fun x y => apart len (snd x) (snd y)) ps.

Definition regs (ps : list (A * Z)) (f : A -> list byte) : list (Z * list byte) := map (fun x => (snd x, f (fst x))) ps.

Variable modes : list A.
Hypothesis step : forall m src ps any, valid m size src ps -> map fst ps = modes ->
  exists m', body src (Nst m (map snd ps) any) = Ok (Nst m' (map (fun d => d + size) (map snd ps)) (any || N (slice m src size))) /\
    writes m m' (regs ps (fun a => G a (slice m src size))).

Fixpoint chunks (n : nat) (m : list byte) (p : Z) : list (list byte) :=
  match n with O => [] | S n => slice m p size :: chunks n m (p + size) end.

Definition shift (s : Z) (ps : list (A * Z)) : list (A * Z) := map (fun x => (fst x, snd x + s)) ps.

Lemma shift_fst : forall s ps, map fst (shift s ps) = map fst ps.
Proof using. intros. unfold shift. rewrite map_map. apply map_ext. reflexivity. Qed.
Lemma shift_snd : forall s ps, map snd (shift s ps) = map (fun d => d + s) (map snd ps).
Proof using. intros. unfold shift. rewrite !map_map. apply map_ext. reflexivity. Qed.

Lemma chunks_len : forall n m p b, 0 <= p -> p + size * Z.of_nat n <= zlen m -> In b (chunks n m p) -> zlen b = size.
Proof using size_pos. clear - size_pos.
  induction n as [|n IH]; intros m p b H1 H2 I; [destruct I|]. destruct I as [<-|I].
  - apply zlen_slice; lia.
  - revert I. apply IH; lia.
Qed.

Lemma flat_len : forall a bs, (forall b, In b bs -> zlen b = size) -> zlen (flat_map (G a) bs) = size * zlen bs.
Proof using G_len. clear - G_len.
  intros a. induction bs as [|b bs IH]; intros H; [cbn; change (zlen (@nil byte)) with 0; change (zlen (@nil (list byte))) with 0; lia|].
  cbn [flat_map]. rewrite zlen_app, zlen_cons, IH by (intros; apply H; right; assumption).
  rewrite G_len by (apply H; left; reflexivity). lia.
Qed.
Lemma chunks_zlen : forall n m p, zlen (chunks n m p) = Z.of_nat n.
Proof using. clear - size. induction n as [|n IH]; intros m p; [reflexivity|]. cbn [chunks]. rewrite zlen_cons, IH. lia. Qed.

Lemma chunks_ext : forall n m m' p, (forall k, 0 <= k < Z.of_nat n -> slice m' (p + size * k) size = slice m (p + size * k) size) ->
  chunks n m' p = chunks n m p.
Proof using. clear - size.
  induction n as [|n IH]; intros m m' p H; [reflexivity|]. cbn [chunks]. f_equal.
  - specialize (H 0). replace (p + size * 0) with p in H by lia. apply H. lia.
  - apply IH. intros k K. specialize (H (k + 1)). replace (p + size * (k + 1)) with (p + size + size * k) in H by lia. apply H. lia.
Qed.

Lemma loop_ok : forall n m inp ps any, valid m (size * Z.of_nat n) inp ps -> map fst ps = modes ->
  exists m', block_loop n inp size body (Nst m (map snd ps) any) =
      Ok (Nst m' (map (fun d => d + size * Z.of_nat n) (map snd ps)) (any || existsb N (chunks n m inp))) /\
    writes m m' (regs ps (fun a => flat_map (G a) (chunks n m inp))).
Proof using size_pos G_len step.
  induction n as [|n IH]; intros m inp ps any V M.
  - cbn [block_loop chunks existsb]. exists m. split.
    + rewrite orb_false_r. replace (map (fun d : Z => d + size * Z.of_nat 0) (map snd ps)) with (map snd ps); [reflexivity|].
      rewrite map_map. apply map_ext. intros x. lia.
    + split; [reflexivity|]. split; [|reflexivity]. intros p d j I J. unfold regs in I. apply in_map_iff in I.
      destruct I as [x [E _]]. injection E as <- <-. cbn in J. change (zlen (@nil byte)) with 0 in J. lia.
  - destruct V as [V1 [V2 [V3 V4]]].
    assert (LL : size * Z.of_nat (S n) = size + size * Z.of_nat n) by lia.
    assert (NN : 0 <= size * Z.of_nat n) by lia.
    rewrite LL in *.
    assert (V' : valid m size inp ps).
    { split; [lia|]. split; [lia|]. split.
      - intros x X. destruct (V3 x X) as [P1 [P2 P3]]. split; [lia|]. split; [lia|]. destruct P3 as [P3|P3]; [left; exact P3|right].
        unfold apart in *. lia.
      - revert V4. apply FOP_impl. unfold apart. intros. lia. }
    destruct (step m inp ps any V' M) as [m1 [B1 W1]].
    cbn [block_loop]. rewrite B1. cbn [bind]. rewrite <- shift_snd.
    assert (L1 : zlen m1 = zlen m) by apply W1.
    assert (V'' : valid m1 (size * Z.of_nat n) (inp + size) (shift size ps)).
    { split; [lia|]. split; [lia|]. split.
      - intros x X. unfold shift in X. apply in_map_iff in X. destruct X as [y [<- Y]]. destruct (V3 y Y) as [P1 [P2 P3]].
        cbn [fst snd]. split; [lia|]. split; [lia|]. unfold place in *. cbn [fst snd]. destruct P3 as [[P3 P3']|P3].
        + left. split; [lia|exact P3'].
        + right. unfold apart in *. lia.
      - unfold shift. revert V4. apply FOP_map. unfold apart. cbn [snd]. intros. lia. }
    destruct (IH m1 (inp + size) (shift size ps) (any || N (slice m inp size)) V'') as [m' [B2 W2]]; [rewrite shift_fst; exact M|].
    exists m'. split.
    + rewrite B2. rewrite !shift_snd, !map_map. 
      assert (CE : chunks n m1 (inp + size) = chunks n m (inp + size)).
      { apply chunks_ext. intros k K. apply (writes_keep m m1 _ _ _ W1); [nia|lia|nia|].
        intros p d I. unfold regs in I. apply in_map_iff in I. destruct I as [x [E X]]. injection E as <- <-.
        rewrite G_len by (apply zlen_slice; lia). destruct (V3 x X) as [P1 [P2 P3]].
        assert (0 <= size * k /\ size * k + size <= size * Z.of_nat n) by nia.
        destruct P3 as [[P3 _]|P3]; [lia|]. unfold apart in P3. lia. }
      rewrite CE. cbn [chunks existsb]. rewrite orb_assoc. do 2 f_equal. apply map_ext. intros x. lia.
    + assert (CE : chunks n m1 (inp + size) = chunks n m (inp + size)).
      { apply chunks_ext. intros k K. apply (writes_keep m m1 _ _ _ W1); [nia|lia|nia|].
        intros p d I. unfold regs in I. apply in_map_iff in I. destruct I as [x [E X]]. injection E as <- <-.
        rewrite G_len by (apply zlen_slice; lia). destruct (V3 x X) as [P1 [P2 P3]].
        assert (0 <= size * k /\ size * k + size <= size * Z.of_nat n) by nia.
        destruct P3 as [[P3 _]|P3]; [lia|]. unfold apart in P3. lia. }
      rewrite CE in W2. cbn [chunks].
      assert (FL : forall a, zlen (flat_map (G a) (chunks n m (inp + size))) = size * Z.of_nat n).
      { intros a. rewrite flat_len; [rewrite chunks_zlen; reflexivity|]. intros b. apply chunks_len; lia. }
      assert (GL : forall a, zlen (G a (slice m inp size)) = size) by (intros a; apply G_len, zlen_slice; lia).
      destruct W1 as [_ [A1 U1]]. destruct W2 as [_ [A2 U2]].
      split; [rewrite <- L1; destruct (IH m1 (inp + size) (shift size ps) (any || N (slice m inp size)) V'') as [mm [BB [WW _]]]; [rewrite shift_fst; exact M|]; rewrite B2 in BB; injection BB as <-; exact WW|].
      split.
      * intros p d j I J. unfold regs in I. apply in_map_iff in I. destruct I as [x [E X]]. injection E as <- <-.
        cbn [flat_map] in *. rewrite zlen_app, GL, FL in J. destruct (V3 x X) as [P1 [P2 P3]].
        destruct (Z.lt_ge_cases j size) as [J1|J1].
        -- rewrite znth_app1 by (rewrite GL; lia). rewrite U2.
           ++ apply (A1 (snd x) (G (fst x) (slice m inp size)) j).
              ** unfold regs. apply in_map_iff. exists x. split; [reflexivity|exact X].
              ** rewrite GL. lia.
           ++ lia.
           ++ intros q e I. unfold regs, shift in I. rewrite map_map in I. apply in_map_iff in I. destruct I as [y [E Y]].
              injection E as <- <-. cbn [fst snd]. rewrite FL. destruct (FOP_app_in _ _ _ x y V4 X Y) as [<-|[O|O]]; [lia| |]; unfold apart in O; lia.
        -- rewrite znth_app2 by (rewrite GL; lia). rewrite GL.
           replace (snd x + j) with (snd x + size + (j - size)) by lia.
           apply (A2 (snd x + size) (flat_map (G (fst x)) (chunks n m (inp + size))) (j - size)).
           ++ unfold regs, shift. rewrite map_map. apply in_map_iff. exists x. split; [reflexivity|exact X].
           ++ rewrite FL. lia.
      * intros q Q NI.
        assert (NI' : forall x, In x ps -> ~ (snd x <= q < snd x + (size + size * Z.of_nat n))).
        { intros x X. specialize (NI (snd x) (G (fst x) (slice m inp size) ++ flat_map (G (fst x)) (chunks n m (inp + size)))).
          rewrite zlen_app, GL, FL in NI. apply NI. unfold regs. apply in_map_iff. exists x. split; [reflexivity|exact X]. }
        rewrite U2.
        -- apply U1; [exact Q|]. intros p d I. unfold regs in I. apply in_map_iff in I. destruct I as [x [E X]]. injection E as <- <-.
           rewrite GL. pose proof (NI' x X). lia.
        -- lia.
        -- intros p d I. unfold regs, shift in I. rewrite map_map in I. apply in_map_iff in I. destruct I as [x [E X]]. injection E as <- <-.
           cbn [fst snd]. rewrite FL. pose proof (NI' x X). lia.
Qed.

(** The pieces of the result. *)
Lemma flat_piece : forall a n m p k, 0 <= p -> p + size * Z.of_nat n <= zlen m -> 0 <= k < Z.of_nat n ->
  slice (flat_map (G a) (chunks n m p)) (size * k) size = G a (slice m (p + size * k) size).
Proof using size_pos G_len. clear - size_pos G_len.
  intros a. induction n as [|n IH]; intros m p k H1 H2 K; [lia|]. cbn [chunks flat_map].
  assert (GL : zlen (G a (slice m p size)) = size) by (apply G_len, zlen_slice; lia).
  assert (FL : zlen (flat_map (G a) (chunks n m (p + size))) = size * Z.of_nat n).
  { rewrite flat_len; [rewrite chunks_zlen; reflexivity|]. intros b. apply chunks_len; lia. }
  destruct (Z.eq_dec k 0) as [->|K0].
  - replace (size * 0) with 0 by lia. replace (p + 0) with p by lia. apply znth_ext.
    + rewrite zlen_slice by (rewrite ?zlen_app; nia). lia.
    + intros i I. rewrite zlen_slice in I by (rewrite ?zlen_app; nia). rewrite znth_slice by lia. cbn [Z.add]. apply znth_app1. lia.
  - replace (p + size * k) with (p + size + size * (k - 1)) by lia. rewrite <- IH by lia. apply znth_ext.
    + rewrite !zlen_slice by (rewrite ?zlen_app; nia). reflexivity.
    + intros i I. rewrite zlen_slice in I by (rewrite ?zlen_app; nia). rewrite !znth_slice by nia. rewrite znth_app2 by nia. f_equal. lia.
Qed.

Lemma existsb_chunks : forall n m p, existsb N (chunks n m p) = true <-> exists k, 0 <= k < Z.of_nat n /\ N (slice m (p + size * k) size) = true.
Proof using. clear - N.
  induction n as [|n IH]; intros m p; cbn [chunks existsb].
  - split; [intros; discriminate|]. intros [k [K _]]. lia.
  - rewrite orb_true_iff, IH. split.
    + intros [H|[k [K H]]].
      * exists 0. split; [lia|]. replace (p + size * 0) with p by lia. exact H.
      * exists (k + 1). split; [lia|]. replace (p + size * (k + 1)) with (p + size + size * k) by lia. exact H.
    + intros [k [K H]]. destruct (Z.eq_dec k 0) as [->|K0].
      * left. replace (p + size * 0) with p in H by lia. exact H.
      * right. exists (k - 1). split; [lia|]. replace (p + size + size * (k - 1)) with (p + size * k) by lia. exact H.
Qed.
End LOOP.

(** ** Several destinations for one block *)
Lemma for_dsts_ok : forall A (size : Z) (G : A -> list byte -> list byte) (inplace : A -> bool) (src : Z)
    (body : A -> Z -> list byte -> res (list byte)),
  0 < size -> (forall a c, zlen c = size -> zlen (G a c) = size) ->
  (forall a d m, 0 <= src -> src + size <= zlen m -> 0 <= d -> d + size <= zlen m -> place inplace size src (a, d) ->
     body a d m = Ok (splice m d (G a (slice m src size)))) ->
  forall (ps : list (A * Z)) (m : list byte),
  ForallOrdPairs (fun x y => snd x = src -> inplace (fst x) = true -> G (fst y) (G (fst x) (slice m src size)) = G (fst y) (slice m src size)) ps ->
  valid inplace m size src ps ->
  exists m', for_dsts (map fst ps) (map snd ps) body m = Ok m' /\ writes m m' (regs ps (fun a => G a (slice m src size))).
Proof.
  intros A size G inplace src body SP GL B. induction ps as [|[a d] ps IH]; intros m ST [V1 [V2 [V3 V4]]].
  - exists m. split; [reflexivity|]. apply writes_nil.
  - cbn [map fst snd for_dsts]. destruct (V3 (a, d) (or_introl eq_refl)) as [P1 [P2 P3]]. cbn [snd] in P1, P2.
    rewrite B by assumption. cbn [bind]. set (b := slice m src size) in *.
    assert (LB : zlen b = size) by (apply zlen_slice; lia).
    assert (LG : zlen (G a b) = size) by (apply GL; exact LB).
    set (m1 := splice m d (G a b)). assert (L1 : zlen m1 = zlen m) by (apply zlen_splice; lia).
    destruct (FOP_cons _ _ _ _ ST) as [ST1 ST2]. destruct (FOP_cons _ _ _ _ V4) as [AP V4']. rewrite Forall_forall in ST1, AP.
    assert (S1 : forall x, In x ps -> G (fst x) (slice m1 src size) = G (fst x) b).
    { intros x I. unfold m1. destruct P3 as [[P3 P4]|P3]; cbn [fst snd] in *.
      - subst d. rewrite slice_splice_same' by lia. apply ST1; [exact I|reflexivity|assumption].
      - rewrite slice_splice_apart by (unfold apart in P3; lia). reflexivity. }
    destruct (IH m1) as [m' [F W]].
    + destruct P3 as [[P3 P4]|P3]; cbn [fst snd] in *.
      * assert (NO : forall x, In x ps -> snd x <> src).
        { intros x X. pose proof (AP x X) as O. unfold apart in O. cbn [snd] in O. lia. }
        clear - NO. induction ps as [|x ps IH]; [constructor|]. constructor.
        -- apply Forall_forall. intros y _ E. exfalso. exact (NO x (or_introl eq_refl) E).
        -- apply IH. intros y Y. apply NO. right. exact Y.
      * unfold m1. rewrite slice_splice_apart by (unfold apart in P3; lia). exact ST2.
    + split; [lia|]. split; [lia|]. split; [|exact V4'].
      intros x X. rewrite L1. apply V3. right. exact X.
    + exists m'. split; [exact F|]. unfold regs. cbn [map fst snd]. apply writes_cons; [lia|lia| |].
      * replace (map (fun x : A * Z => (snd x, G (fst x) b)) ps) with (regs ps (fun a0 => G a0 (slice m1 src size))); [exact W|].
        unfold regs. apply map_ext_in. intros x X. rewrite S1; [reflexivity|exact X].
      * cbn [fst snd]. intros q e I. apply in_map_iff in I. destruct I as [x [E X]]. injection E as <- <-.
        rewrite LG, GL by exact LB. pose proof (AP x X) as O. unfold apart in O. cbn [snd] in O. lia.
Qed.

(** ** Blocks in parts *)
Section SPLIT.
Variable parts : list (Z * Z).
Variable n : Z.
Variable F : list byte -> list byte.
Variable body : Z -> list byte -> res (list byte).
Hypothesis step : forall k m, 0 <= k < n -> parts_ok m parts n ->
  exists m', body k m = Ok m' /\ zlen m' = zlen m /\ gather m' parts k = F (gather m parts k) /\
    (forall q, 0 <= q < zlen m -> (forall p w, In (p, w) parts -> ~ (p + w * k <= q < p + w * k + w)) -> znth m' q = znth m q).

Lemma gather_ext : forall m m' k (ps : list (Z * Z)), zlen m' = zlen m ->
  (forall p w, In (p, w) ps -> 0 < w /\ 0 <= p + w * k /\ p + w * k + w <= zlen m /\ forall i, 0 <= i < w -> znth m' (p + w * k + i) = znth m (p + w * k + i)) ->
  gather m' ps k = gather m ps k.
Proof.
  intros m m' k ps L H. unfold gather. induction ps as [|[p w] ps IH]; [reflexivity|]. cbn [flat_map]. f_equal.
  - destruct (H p w (or_introl eq_refl)) as [W [A [B C]]]. apply znth_ext.
    + rewrite !zlen_slice by lia. reflexivity.
    + intros i I. rewrite zlen_slice in I by lia. rewrite !znth_slice by lia. apply C. exact I.
  - apply IH. intros p' w' I. apply H. right. exact I.
Qed.

(** Blocks do not share bytes. *)
Lemma parts_disjoint : forall m k k' p w p' w' i, parts_ok m parts n -> 0 <= k < n -> 0 <= k' < n -> k <> k' ->
  In (p, w) parts -> In (p', w') parts -> 0 <= i < w -> ~ (p' + w' * k' <= p + w * k + i < p' + w' * k' + w').
Proof.
  intros m k k' p w p' w' i [P1 P2] K K' NE I I' J. destruct (P1 p w I) as [W _]. destruct (P1 p' w' I') as [W' _].
  destruct (FOP_app_in _ _ _ _ _ P2 I I') as [E|[E|E]]; cbn [fst snd] in *.
  - injection E as -> ->. destruct (Z.lt_ge_cases k k') as [Q|Q]; [|assert (k' + 1 <= k) by lia]; nia.
  - assert (w * k + w <= w * n) by nia. assert (0 <= w' * k') by nia. assert (w' * k' + w' <= w' * n) by nia. assert (0 <= w * k) by nia. lia.
  - assert (w * k + w <= w * n) by nia. assert (0 <= w' * k') by nia. assert (w' * k' + w' <= w' * n) by nia. assert (0 <= w * k) by nia. lia.
Qed.

Lemma split_loop : forall r i m, 0 <= i -> i + Z.of_nat r <= n -> parts_ok m parts n ->
  exists m', for_blocks r i body m = Ok m' /\ zlen m' = zlen m /\
    (forall k, i <= k < i + Z.of_nat r -> gather m' parts k = F (gather m parts k)) /\
    (forall q, 0 <= q < zlen m -> (forall p w k, In (p, w) parts -> i <= k < i + Z.of_nat r -> ~ (p + w * k <= q < p + w * k + w)) -> znth m' q = znth m q).
Proof.
  induction r as [|r IH]; intros i m I0 IN P.
  - exists m. split; [reflexivity|]. split; [reflexivity|]. split; [intros; lia|reflexivity].
  - destruct (step i m) as [m1 [B1 [L1 [G1 U1]]]]; [lia|exact P|].
    assert (P' : parts_ok m1 parts n). { destruct P as [A B]. split; [|exact B]. unfold within in *. rewrite L1. exact A. }
    destruct (IH (i + 1) m1) as [m' [B2 [L2 [G2 U2]]]]; [lia|lia|exact P'|].
    assert (RNG : forall p w k, In (p, w) parts -> 0 <= k < n -> 0 < w /\ 0 <= p + w * k /\ p + w * k + w <= zlen m).
    { intros p w k I K. destruct P as [A _]. destruct (A p w I) as [W [X [Y Q]]]. split; [exact W|]. nia. }
    exists m'. cbn [for_blocks]. rewrite B1. cbn [bind]. split; [exact B2|]. split; [lia|]. split.
    + intros k K. destruct (Z.eq_dec k i) as [->|NE].
      * rewrite <- G1. apply gather_ext; [lia|]. intros p w I. rewrite L1. destruct (RNG p w i I) as [A [B C]]; [lia|].
        split; [exact A|]. split; [exact B|]. split; [exact C|]. intros j J. apply U2; [lia|]. intros p' w' k' I' K'.
        apply (parts_disjoint m1 i k' p w p' w' j P'); (assumption || lia).
      * rewrite G2 by lia. f_equal. apply gather_ext; [lia|]. intros p w I. destruct (RNG p w k I) as [A [B C]]; [lia|].
        split; [exact A|]. split; [exact B|]. split; [exact C|]. intros j J. apply U1; [lia|]. intros p' w' I'.
        apply (parts_disjoint m k i p w p' w' j P); (assumption || lia).
    + intros q Q NI. rewrite U2; [|lia|].
      * apply U1; [exact Q|]. intros p w I. apply NI; [exact I|lia].
      * intros p w k I K. apply NI; [exact I|lia].
Qed.
End SPLIT.
