(** The normalisation functions. *)
From Verif Require Import Base.Bytes Base.Res Model.Color565 Model.Decode Model.Normalize Spec.Pixels Spec.Normalize
  Proofs.DecodeFacts Proofs.NormLoop Proofs.NormPixels.
From Coq Require Import ZifyBool ZifyNat.

Lemma splice_over : forall (m : list byte) p a b, 0 <= p -> zlen a <= zlen b -> p + zlen b <= zlen m ->
  splice (splice m p a) p b = splice m p b.
Proof.
  intros m p a b H1 H2 H3. pose proof (zlen_nonneg _ a). apply znth_ext.
  - rewrite !zlen_splice by (rewrite ?zlen_splice by lia; lia). reflexivity.
  - intros i I. rewrite !zlen_splice in I by (rewrite ?zlen_splice by lia; lia).
    rewrite !znth_splice by (rewrite ?zlen_splice by lia; lia).
    destruct ((p <=? i) && (i <? p + zlen b)) eqn:E; [reflexivity|].
    replace ((p <=? i) && (i <? p + zlen a)) with false by lia. reflexivity.
Qed.

Lemma skipn_slice : forall (m : list byte) p n, 0 <= p -> 0 <= n -> p + n <= zlen m ->
  skipn (Z.to_nat p) m = slice m p n ++ skipn (Z.to_nat n) (skipn (Z.to_nat p) m).
Proof. intros. unfold slice. symmetry. apply firstn_skipn. Qed.

Lemma decode1 : forall m p, 0 <= p -> p + 8 <= zlen m -> decode_bc1_block (skipn (Z.to_nat p) m) = Ok (picture bc1_pixel (slice m p 8)).
Proof.
  intros m p H1 H2. rewrite (skipn_slice m p 8) by lia. assert (L : zlen (slice m p 8) = 8) by (apply zlen_slice; lia).
  rewrite bc1_decode; [rewrite bc1_tail by exact L; reflexivity|]. rewrite zlen_app. pose proof (zlen_nonneg _ (skipn (Z.to_nat 8) (skipn (Z.to_nat p) m))). lia.
Qed.
Lemma decode2 : forall m p, 0 <= p -> p + 16 <= zlen m -> decode_bc2_block (skipn (Z.to_nat p) m) = Ok (picture bc2_pixel (slice m p 16)).
Proof.
  intros m p H1 H2. rewrite (skipn_slice m p 16) by lia. assert (L : zlen (slice m p 16) = 16) by (apply zlen_slice; lia).
  rewrite bc2_decode; [rewrite bc2_tail by exact L; reflexivity|]. rewrite zlen_app. pose proof (zlen_nonneg _ (skipn (Z.to_nat 16) (skipn (Z.to_nat p) m))). lia.
Qed.
Lemma decode3 : forall m p, 0 <= p -> p + 16 <= zlen m -> decode_bc3_block (skipn (Z.to_nat p) m) = Ok (picture bc3_pixel (slice m p 16)).
Proof.
  intros m p H1 H2. rewrite (skipn_slice m p 16) by lia. assert (L : zlen (slice m p 16) = 16) by (apply zlen_slice; lia).
  rewrite bc3_decode; [rewrite bc3_tail by exact L; reflexivity|]. rewrite zlen_app. pose proof (zlen_nonneg _ (skipn (Z.to_nat 16) (skipn (Z.to_nat p) m))). lia.
Qed.

(** From what the loop writes to statements about textures. *)
Lemma loop_result : forall A size (G : A -> list byte -> list byte) inplace n m m' inp (ps : list (A * Z)) len,
  0 < size -> (forall a b, zlen b = size -> zlen (G a b) = size) -> len = size * Z.of_nat n ->
  valid inplace m len inp ps ->
  writes m m' (regs ps (fun a => flat_map (G a) (chunks size n m inp))) ->
  only_changes (map (fun x => (snd x, len)) ps) m m' /\
  forall a out, In (a, out) ps -> blockwise size (fun b b' => b' = G a b) (slice m inp len) (slice m' out len).
Proof.
  intros A size G inplace n m m' inp ps len SP GL LEN [V1 [V2 [V3 V4]]] W.
  assert (FL : forall a, zlen (flat_map (G a) (chunks size n m inp)) = len).
  { intros a. rewrite (flat_len size G GL); [rewrite chunks_zlen; lia|]. intros b. apply chunks_len; lia. }
  assert (L0 : 0 <= len) by lia. assert (LM : zlen m' = zlen m) by apply W. split.
  - split; [exact LM|]. intros i I N. destruct W as [_ [_ U]]. apply U; [exact I|]. intros p d R. unfold regs in R. apply in_map_iff in R.
    destruct R as [x [E X]]. injection E as <- <-. rewrite FL. apply N. apply in_map_iff. exists x. split; [reflexivity|exact X].
  - intros a out I. destruct (V3 (a, out) I) as [P1 [P2 _]]. cbn [snd] in P1, P2.
    assert (E : slice m' out len = flat_map (G a) (chunks size n m inp)).
    { rewrite <- (FL a). apply (writes_slice m m' _ out _ W); [|lia|rewrite FL; lia].
      unfold regs. apply in_map_iff. exists (a, out). split; [reflexivity|exact I]. }
    rewrite E. split; [rewrite FL, zlen_slice by lia; reflexivity|].
    intros k K0 K1. rewrite zlen_slice in K1 by lia. assert (KN : k < Z.of_nat n) by nia.
    rewrite (flat_piece size SP G GL) by lia. f_equal. apply znth_ext.
    + rewrite !zlen_slice by (rewrite ?zlen_slice by lia; nia). reflexivity.
    + intros i J. rewrite zlen_slice in J by nia. rewrite !znth_slice by nia. f_equal. lia.
Qed.

Lemma blockwise_impl : forall size (R S : list byte -> list byte -> Prop) x y, 0 < size ->
  (forall b b', zlen b = size -> R b b' -> S b b') -> blockwise size R x y -> blockwise size S x y.
Proof.
  intros size R S x y SP H [L B]. split; [exact L|]. intros k K0 K1. apply H; [|apply B; assumption]. apply zlen_slice; nia.
Qed.

Lemma rounds_ok : forall len size, 0 < size -> 0 <= len -> len mod size = 0 -> len = size * Z.of_nat (rounds len size).
Proof.
  intros len size SP L M. unfold rounds. rewrite Z.mod_eq in M by lia.
  assert (E : (len + size - 1) / size = len / size).
  { replace (len + size - 1) with (size - 1 + len / size * size) by lia. rewrite Z.div_add by lia. rewrite Z.div_small by lia. lia. }
  rewrite E. rewrite Z2Nat.id by (apply Z.div_pos; lia). lia.
Qed.

Lemma copy_result : forall size (m : list byte) inp out len, 0 < size -> within m inp len -> within m out len -> inp = out \/ apart len inp out ->
  exists m', (if inp =? out then Ok m else copy_apart m inp out len) = Ok m' /\
    only_changes [(out, len)] m m' /\ blockwise size (fun b b' => b' = b) (slice m inp len) (slice m' out len).
Proof.
  intros size m inp out len SP [I1 [I2 I3]] [O1 [O2 O3]] AP. destruct (inp =? out) eqn:E.
  - assert (inp = out) as -> by lia. exists m. split; [reflexivity|]. split; [split; reflexivity|]. split; [reflexivity|]. reflexivity.
  - unfold copy_apart. destruct AP as [AP|AP]; [lia|]. unfold apart in AP.
    replace ((inp + len <=? out) || (out + len <=? inp) || (len =? 0)) with true by lia.
    rewrite load_ok by lia. cbn [bind]. assert (L : zlen (slice m inp len) = len) by (apply zlen_slice; lia).
    rewrite store_ok by lia. eexists. split; [reflexivity|]. split.
    + split; [apply zlen_splice; lia|]. intros i I N. rewrite znth_splice by lia. pose proof (N out len (or_introl eq_refl)).
      replace ((out <=? i) && (i <? out + zlen (slice m inp len))) with false by lia. reflexivity.
    + rewrite slice_splice_same' by lia. split; reflexivity.
Qed.

Lemma valid1 : forall A (a : A) inplace m len inp out, within m inp len -> within m out len -> inp = out \/ apart len inp out -> inplace a = true ->
  valid inplace m len inp [(a, out)].
Proof.
  intros A a inplace m len inp out [I1 [I2 I3]] [O1 [O2 O3]] AP IP. split; [lia|]. split; [lia|]. split.
  - intros x [<-|[]]. cbn [snd]. split; [lia|]. split; [lia|]. unfold place. cbn [fst snd]. destruct AP as [->|AP]; [left; auto|right].
    unfold apart in *. lia.
  - constructor; [constructor|constructor].
Qed.

Lemma debug_ok : forall d w A (f : unit -> res A), bind (debug_assert d true w) f = f tt.
Proof. intros d w A f. unfold debug_assert. rewrite andb_false_r. reflexivity. Qed.

Lemma same_or_apart_ok : forall inp out len, inp = out \/ apart len inp out -> same_or_apart inp out len = true.
Proof. intros inp out len H. unfold same_or_apart, apart in *. lia. Qed.

(** ** BC1 *)
Definition bc1_write (case : bc1_case) (v : Z) (mode : color_norm) (b : list byte) : list byte :=
  match case with
  | Transparent => repeat xff 8
  | SolidColorRoundtrippable => match mode with CNone => b | _ => solid_bytes mode v end
  | CannotNormalize => b
  end.
Definition bc1_G (mode : color_norm) (b : list byte) : list byte :=
  let (case, v) := bc1_classify (picture bc1_pixel b) in bc1_write case v mode b.
Definition bc1_N (b : list byte) : bool := match fst (bc1_classify (picture bc1_pixel b)) with CannotNormalize => false | _ => true end.

Lemma bc1_write_len : forall case v a b, zlen b = 8 -> zlen (bc1_write case v a b) = 8.
Proof. intros [] v a b L; cbn [bc1_write]; [reflexivity|destruct a; (exact L || reflexivity)|exact L]. Qed.
Lemma bc1_G_len : forall a b, zlen b = 8 -> zlen (bc1_G a b) = 8.
Proof. intros a b L. unfold bc1_G. destruct (bc1_classify _) as [case v]. apply bc1_write_len. exact L. Qed.

Lemma bc1_G_normal : forall mode b, mode <> CNone -> bc1_normal mode b (bc1_G mode b).
Proof.
  intros mode b M. right. split; [exact M|]. unfold bc1_G. pose proof (bc1_classify_ok b) as C.
  destruct (bc1_classify (picture bc1_pixel b)) as [[] v]; cbn [bc1_write].
  - left. split; [exact C|reflexivity].
  - right. left. exists v. split; [exact C|]. destruct mode; [congruence|reflexivity|reflexivity].
  - right. right. destruct C as [C1 C2]. split; [exact C1|]. split; [exact C2|reflexivity].
Qed.

Definition bc1_inplace (mode : color_norm) : bool := match mode with CNone => false | _ => true end.

Lemma bc1_write_solid_ok : forall mode v src dst m, 0 <= src -> src + 8 <= zlen m -> 0 <= dst -> dst + 8 <= zlen m ->
  place bc1_inplace 8 src (mode, dst) ->
  bc1_write_solid dst src v mode m = Ok (splice m dst (bc1_write SolidColorRoundtrippable v mode (slice m src 8))).
Proof.
  intros mode v src dst m S1 S2 D1 D2 PL. unfold bc1_write_solid. rewrite assign_ok by (change (zlen [lo8 v; hi8 v]) with 2; lia). cbn [bind].
  set (c := [lo8 v; hi8 v]). assert (LC : zlen c = 2) by reflexivity.
  assert (L1 : zlen (splice m dst c) = zlen m) by (apply zlen_splice; lia).
  cbn [bc1_write]. destruct mode.
  - destruct PL as [[_ F]|PL]; [discriminate F|]. unfold apart in PL. cbn [snd] in PL.
    rewrite copy8_ok by lia. rewrite slice_splice_apart by lia. rewrite splice_over; [reflexivity|lia| |]; rewrite zlen_slice by lia; lia.
  - rewrite assign_ok by (rewrite ?L1; change (zlen ([x00; x00] ++ zero_indices)) with 6; lia). change (dst + 2) with (dst + zlen c).
    rewrite splice_splice by (change (zlen c) with 2; change (zlen ([x00; x00] ++ zero_indices)) with 6; lia). reflexivity.
  - rewrite assign_ok by (rewrite ?L1; change (zlen (c ++ zero_indices)) with 6; lia). change (dst + 2) with (dst + zlen c).
    rewrite splice_splice by (change (zlen c) with 2; change (zlen (c ++ zero_indices)) with 6; lia). reflexivity.
Qed.

Lemma lC37_bc1 : forall debug m inp out len mode, within m inp len -> within m out len -> len mod 8 = 0 -> inp = out \/ apart len inp out ->
  exists m', bc1_normalize_blocks debug inp out len mode m = Ok m' /\ only_changes [(out, len)] m m' /\
    blockwise 8 (bc1_normal mode) (slice m inp len) (slice m' out len).
Proof.
  intros debug m inp out len mode WI WO M8 AP. unfold bc1_normalize_blocks. rewrite same_or_apart_ok by exact AP. rewrite debug_ok.
  assert (LEN : 0 <= len) by apply WI.
  destruct (match mode with CNone => true | _ => false end) eqn:MD.
  - destruct mode; try discriminate MD. destruct (copy_result 8 m inp out len) as [m' [E [OC BW]]]; [lia|assumption|assumption|assumption|].
    exists m'. split; [exact E|]. split; [exact OC|]. revert BW. apply blockwise_impl; [lia|]. intros b b' _ ->. left. auto.
  - assert (MN : mode <> CNone) by (destruct mode; discriminate || congruence).
    assert (IP : bc1_inplace mode = true) by (destruct mode; congruence || reflexivity).
    match goal with |- context [bc1_impl debug inp len ?h ?s] => set (H := h) end.
    assert (STEP : forall m src (ps : list (color_norm * Z)) any, valid bc1_inplace m 8 src ps -> map fst ps = [mode] ->
      exists m', (fun src s => do pixels <- decode_bc1_block (skipn (Z.to_nat src) (n_mem s)) ;;
            let (case, color565) := bc1_classify pixels in H src case color565 s) src (Nst m (map snd ps) any) =
          Ok (Nst m' (map (fun d => d + 8) (map snd ps)) (any || (fun _ => false) (slice m src 8))) /\
        writes m m' (regs ps (fun a => bc1_G a (slice m src 8)))).
    { clear m inp out len AP WI WO M8 LEN. intros m src ps any [V1 [V2 [V3 _]]] PS. destruct ps as [|[a d] [|? ?]]; [discriminate PS| |discriminate PS].
      injection PS as ->. destruct (V3 (mode, d) (or_introl eq_refl)) as [P1 [P2 P3]]. cbn [snd] in P1, P2.
      cbn [n_mem map snd]. rewrite decode1 by lia. cbn [bind]. unfold regs. cbn [map fst snd].
      assert (GL : zlen (bc1_G mode (slice m src 8)) = 8) by (apply bc1_G_len, zlen_slice; lia).
      exists (splice m d (bc1_G mode (slice m src 8))). split; [|apply splice_writes; lia].
      unfold bc1_G. destruct (bc1_classify (picture bc1_pixel (slice m src 8))) as [case v]. unfold H. cbn [n_dst n_mem n_any nth].
      rewrite orb_false_r. destruct case.
      - rewrite fill_ok by lia. reflexivity.
      - rewrite bc1_write_solid_ok by assumption. reflexivity.
      - rewrite copy8_ok by lia. reflexivity. }
    pose proof (rounds_ok len 8 ltac:(lia) LEN M8) as RN.
    assert (V : valid bc1_inplace m len inp [(mode, out)]) by (apply valid1; assumption).
    destruct (loop_ok 8 ltac:(lia) bc1_G bc1_G_len (fun _ => false) bc1_inplace _ [mode] STEP (rounds len 8) m inp [(mode, out)] false) as [m' [E W]];
      [rewrite <- RN; exact V|reflexivity|].
    destruct (loop_result _ 8 bc1_G bc1_inplace (rounds len 8) m m' inp [(mode, out)] len ltac:(lia) bc1_G_len RN V W) as [OC BW].
    exists m'. split; [|split; [exact OC|]].
    + destruct mode; [congruence| |]; unfold bc1_impl; replace (len mod 8 =? 0) with true by lia; rewrite debug_ok; cbn [map snd] in E; rewrite E; reflexivity.
    + specialize (BW mode out (or_introl eq_refl)). revert BW. apply blockwise_impl; [lia|]. intros b b' _ ->. apply bc1_G_normal. exact MN.
Qed.

(** All modes: the buffer of [CNone] gets every block unchanged but the transparent ones. *)

Lemma bc1_G_none : forall b, bc1_kept b (bc1_G CNone b).
Proof.
  intros b. unfold bc1_G, bc1_kept. pose proof (bc1_classify_ok b) as C.
  destruct (bc1_classify (picture bc1_pixel b)) as [[] v]; cbn [bc1_write].
  - left. auto.
  - right. split; [|reflexivity]. intros T. destruct C as [V S]. specialize (T 0%nat ltac:(lia)). rewrite S in T by lia.
    destruct (rgb v) as [[r g] bl]. discriminate T.
  - right. split; [apply C|reflexivity].
Qed.

Lemma bc1_N_iff : forall b, bc1_N b = true <-> bc1_transparent b \/ exists v, bc1_solid b v.
Proof.
  intros b. unfold bc1_N. pose proof (bc1_classify_ok b) as C. destruct (bc1_classify (picture bc1_pixel b)) as [[] v]; cbn [fst].
  - split; auto.
  - split; [|reflexivity]. intros _. right. exists v. exact C.
  - split; [discriminate|]. intros [T|S]; exfalso; destruct C as [C1 C2]; auto.
Qed.

Lemma valid3 : forall A (a0 a1 a2 : A) inplace m len inp o0 o1 o2, within m inp len -> within m o0 len -> within m o1 len -> within m o2 len ->
  (forall a o, In (a, o) [(a0, o0); (a1, o1); (a2, o2)] -> inp = o /\ inplace a = true \/ apart len inp o) ->
  apart len o0 o1 -> apart len o0 o2 -> apart len o1 o2 -> valid inplace m len inp [(a0, o0); (a1, o1); (a2, o2)].
Proof.
  intros A a0 a1 a2 inplace m len inp o0 o1 o2 [I1 [I2 I3]] W0 W1 W2 AP A01 A02 A12. unfold within in *. split; [lia|]. split; [lia|]. split.
  - intros [a o] X. pose proof (AP a o X) as P. unfold place. cbn [fst snd]. split; [|split].
    + destruct X as [E|[E|[E|[]]]]; injection E as _ <-; lia.
    + destruct X as [E|[E|[E|[]]]]; injection E as _ <-; lia.
    + destruct P as [[-> P]|P]; [left; auto|right]. unfold apart in *. lia.
  - apply List.FOP_cons; [constructor; [exact A01|constructor; [exact A02|constructor]]|].
    apply List.FOP_cons; [constructor; [exact A12|constructor]|]. apply List.FOP_cons; [constructor|apply List.FOP_nil].
Qed.

Lemma forallb_apart : forall inp len (l : list Z), (forall o, In o l -> inp = o \/ apart len inp o) -> forallb (fun o => same_or_apart inp o len) l = true.
Proof. intros inp len l H. apply forallb_forall. intros o O. apply same_or_apart_ok. apply H. exact O. Qed.

Lemma lC39_bc1 : forall debug m inp len o0 o1 o2, within m inp len -> within m o0 len -> within m o1 len -> within m o2 len -> len mod 8 = 0 ->
  apart len inp o0 -> (inp = o1 \/ apart len inp o1) -> (inp = o2 \/ apart len inp o2) ->
  apart len o0 o1 -> apart len o0 o2 -> apart len o1 o2 ->
  exists any m', bc1_normalize_blocks_all_modes debug inp [o0; o1; o2] len m = Ok (any, m') /\
    only_changes [(o0, len); (o1, len); (o2, len)] m m' /\
    blockwise 8 bc1_kept (slice m inp len) (slice m' o0 len) /\
    blockwise 8 (bc1_normal Color0Only) (slice m inp len) (slice m' o1 len) /\
    blockwise 8 (bc1_normal ReplicateColor) (slice m inp len) (slice m' o2 len) /\
    (any = true <-> exists k, 0 <= k /\ 8 * (k + 1) <= len /\
       (bc1_transparent (slice m (inp + 8 * k) 8) \/ exists v, bc1_solid (slice m (inp + 8 * k) 8) v)).
Proof.
  intros debug m inp len o0 o1 o2 WI W0 W1 W2 M8 AI0 AI1 AI2 A01 A02 A12. unfold bc1_normalize_blocks_all_modes.
  assert (LEN : 0 <= len) by apply WI.
  replace (len mod 8 =? 0) with true by lia. rewrite debug_ok.
  rewrite forallb_apart by (intros o [<-|[<-|[<-|[]]]]; auto). rewrite debug_ok.
  match goal with |- context [bc1_impl debug inp len ?h ?s] => set (H := h) end.
  set (ps := [(CNone, o0); (Color0Only, o1); (ReplicateColor, o2)]).
  assert (STEP : forall m src (ps : list (color_norm * Z)) any, valid bc1_inplace m 8 src ps -> map fst ps = all_color_norms ->
    exists m', (fun src s => do pixels <- decode_bc1_block (skipn (Z.to_nat src) (n_mem s)) ;;
          let (case, color565) := bc1_classify pixels in H src case color565 s) src (Nst m (map snd ps) any) =
        Ok (Nst m' (map (fun d => d + 8) (map snd ps)) (any || bc1_N (slice m src 8))) /\
      writes m m' (regs ps (fun a => bc1_G a (slice m src 8)))).
  { clear - H. intros m src ps any V PS. assert (V0 := V). destruct V as [V1 [V2 _]]. cbn [n_mem]. rewrite decode1 by lia. cbn [bind].
    set (b := slice m src 8) in *. unfold bc1_G, bc1_N. destruct (bc1_classify (picture bc1_pixel b)) as [case v] eqn:CL. cbn [fst].
    assert (FD : forall body, (forall a d m, 0 <= src -> src + 8 <= zlen m -> 0 <= d -> d + 8 <= zlen m -> place bc1_inplace 8 src (a, d) ->
        body a d m = Ok (splice m d (bc1_write case v a (slice m src 8)))) ->
      exists m', for_dsts all_color_norms (map snd ps) body m = Ok m' /\ writes m m' (regs ps (fun a => bc1_write case v a b))).
    { intros body B. rewrite <- PS. apply (for_dsts_ok _ 8 (bc1_write case v) bc1_inplace src body); [lia|apply bc1_write_len|exact B| |exact V0].
      destruct ps as [|[x0 d0] [|[x1 d1] [|[x2 d2] [|? ?]]]]; try discriminate PS. injection PS as -> -> ->.
      apply List.FOP_cons; [constructor; [|constructor; [|constructor]]|apply List.FOP_cons; [constructor; [|constructor]|apply List.FOP_cons; [constructor|apply List.FOP_nil]]];
        cbn [fst snd]; intros _; intros; destruct case; reflexivity || discriminate. }
    destruct case; unfold H; cbn [n_dst n_mem n_any].
    - destruct (FD (fun _ dst m => fill m dst xff 8)) as [m' [E W]]; [intros; rewrite fill_ok by lia; reflexivity|].
      exists m'. split; [|exact W]. rewrite E. cbn [bind fst snd]. rewrite orb_true_r. reflexivity.
    - destruct (FD (fun mode dst => bc1_write_solid dst src v mode)) as [m' [E W]]; [intros; apply bc1_write_solid_ok; assumption|].
      exists m'. split; [|exact W]. rewrite E. cbn [bind fst snd]. rewrite orb_true_r. reflexivity.
    - destruct (FD (fun _ dst m => copy8 m src dst)) as [m' [E W]]; [intros; rewrite copy8_ok by lia; reflexivity|].
      exists m'. split; [|exact W]. rewrite E. cbn [bind fst snd]. rewrite orb_false_r. reflexivity. }
  pose proof (rounds_ok len 8 ltac:(lia) LEN M8) as RN.
  assert (V : valid bc1_inplace m len inp ps).
  { unfold ps. apply valid3; try assumption. intros a o [E|[E|[E|[]]]]; injection E as <- <-; [right; exact AI0|destruct AI1; auto|destruct AI2; auto]. }
  destruct (loop_ok 8 ltac:(lia) bc1_G bc1_G_len bc1_N bc1_inplace _ all_color_norms STEP (rounds len 8) m inp ps false) as [m' [E W]];
    [rewrite <- RN; exact V|reflexivity|].
  destruct (loop_result _ 8 bc1_G bc1_inplace (rounds len 8) m m' inp ps len ltac:(lia) bc1_G_len RN V W) as [OC BW].
  exists (false || existsb bc1_N (chunks 8 (rounds len 8) m inp)), m'. split; [|split; [exact OC|split; [|split; [|split]]]].
  - unfold bc1_impl. replace (len mod 8 =? 0) with true by lia. rewrite debug_ok. unfold ps in E. cbn [map snd] in E. rewrite E. reflexivity.
  - specialize (BW CNone o0 (or_introl eq_refl)). revert BW. apply blockwise_impl; [lia|]. intros b b' _ ->. apply bc1_G_none.
  - specialize (BW Color0Only o1 (or_intror (or_introl eq_refl))). revert BW. apply blockwise_impl; [lia|]. intros b b' _ ->. apply bc1_G_normal. discriminate.
  - specialize (BW ReplicateColor o2 (or_intror (or_intror (or_introl eq_refl)))). revert BW. apply blockwise_impl; [lia|]. intros b b' _ ->. apply bc1_G_normal. discriminate.
  - cbn [orb]. rewrite existsb_chunks by lia. split.
    + intros [k [K N]]. exists k. split; [lia|]. split; [lia|]. apply bc1_N_iff. exact N.
    + intros [k [K0 [K1 N]]]. exists k. split; [lia|]. apply bc1_N_iff. exact N.
Qed.
