(** Handler selection and the file API. *)
From Verif Require Import Base.Bytes Base.Res Model.Kernel Model.Transform Model.Auto Model.Builders Model.Embed Model.Bundle Model.Dds Model.Handlers.
From Verif Require Import Spec.Layout Spec.Estimator Spec.Files Spec.Dds Spec.Handlers Proofs.SliceFacts Proofs.EmbedFacts Proofs.BundleFacts Proofs.DdsFacts Proofs.DdsHandler.
Open Scope list_scope.
Open Scope Z_scope.

Section Multi.
Context {B W : Type}.
Notation H := (handler B W).

Lemma try_first : forall {O} (acc : H -> W -> res (bool * W)) run pre h post (out : O) w w1 w2,
  all_decline acc pre w w1 -> acc h w1 = Ok (true, w2) ->
  try_handlers acc run (pre ++ h :: post) out w =
  match run h out w2 with
  | Ok (ROk _, o, w3) => Ok (ROk h, o, w3)
  | Ok (RErr e, o, w3) => Ok (RErr e, o, w3)
  | Panic y => Panic y
  | Ub y => Ub y
  end.
Proof.
  intros O acc run pre h post out. induction pre as [|g pre IH]; intros w w1 w2 D A; cbn [all_decline app try_handlers] in *.
  - subst w1. rewrite A. cbn [bind]. destruct (run h out w2) as [[[[[]|e] o] w3]| |]; reflexivity.
  - destruct D as (w' & G & D). rewrite G. cbn [bind]. exact (IH _ _ _ D A).
Qed.
Lemma try_none : forall {O} (acc : H -> W -> res (bool * W)) run hs (out : O) w w1,
  all_decline acc hs w w1 -> try_handlers acc run hs out w = Ok (RErr NoSupportedHandler, out, w1).
Proof.
  intros O acc run hs out. induction hs as [|g hs IH]; intros w w1 D; cbn [all_decline try_handlers] in *; [subst; reflexivity|].
  destruct D as (w' & G & D). rewrite G. exact (IH _ _ D).
Qed.
Lemma tryf_first : forall {O} (acc : H -> W -> res (bool * W)) run pre h post (out : O) w w1 w2,
  all_decline acc pre w w1 -> acc h w1 = Ok (true, w2) ->
  try_file_handlers acc run (pre ++ h :: post) out w =
  match run h out w2 with
  | Ok (ROk _, o, w3) => Ok (ROk h, o, w3)
  | Ok (RErr e, o, w3) => Ok (RErr e, o, w3)
  | Panic y => Panic y
  | Ub y => Ub y
  end.
Proof.
  intros O acc run pre h post out. induction pre as [|g pre IH]; intros w w1 w2 D A; cbn [all_decline app try_file_handlers] in *.
  - subst w1. rewrite A. cbn [bind]. destruct (run h out w2) as [[[[[]|e] o] w3]| |]; reflexivity.
  - destruct D as (w' & G & D). rewrite G. cbn [bind]. exact (IH _ _ _ D A).
Qed.
Lemma tryf_none : forall {O} (acc : H -> W -> res (bool * W)) run hs (out : O) w w1,
  all_decline acc hs w w1 -> try_file_handlers acc run hs out w = Ok (RErr (FTransform NoSupportedHandler), out, w1).
Proof.
  intros O acc run hs out. induction hs as [|g hs IH]; intros w w1 D; cbn [all_decline try_file_handlers] in *; [subst; reflexivity|].
  destruct D as (w' & G & D). rewrite G. exact (IH _ _ D).
Qed.

(** Every call ends in one of the ways above. *)
Lemma try_inv : forall {O} (acc : H -> W -> res (bool * W)) run hs (out : O) w r o w',
  try_handlers acc run hs out w = Ok (r, o, w') ->
  (all_decline acc hs w w' /\ r = RErr NoSupportedHandler /\ o = out) \/
  exists pre h post w1 w2 r', hs = pre ++ h :: post /\ all_decline acc pre w w1 /\ acc h w1 = Ok (true, w2) /\ run h out w2 = Ok (r', o, w') /\
    r = match r' with ROk _ => ROk h | RErr e => RErr e end.
Proof.
  intros O acc run hs out. induction hs as [|g hs IH]; intros w r o w' E; cbn [try_handlers all_decline] in *.
  - injection E as <- <- <-. left. auto.
  - destruct (acc g w) as [[[] w1]| |] eqn:A; cbn [bind] in E; try discriminate.
    + right. exists [], g, hs, w, w1. destruct (run g out w1) as [[[[[]|e] o1] w2]| |] eqn:R; cbn [bind] in E; try discriminate;
        injection E as <- <- <-; eexists; cbn [all_decline app]; repeat (split; [first [reflexivity|eassumption]|]); reflexivity.
    + destruct (IH _ _ _ _ E) as [(D & -> & ->)|(pre & h & post & wa & wb & r' & -> & D & A' & R & ->)].
      * left. split; [|auto]. exists w1. auto.
      * right. exists (g :: pre), h, post, wa, wb, r'. cbn [all_decline app]. split; [reflexivity|]. split; [exists w1; auto|]. auto.
Qed.
Lemma tryf_inv : forall {O} (acc : H -> W -> res (bool * W)) run hs (out : O) w r o w',
  try_file_handlers acc run hs out w = Ok (r, o, w') ->
  (all_decline acc hs w w' /\ r = RErr (FTransform NoSupportedHandler) /\ o = out) \/
  exists pre h post w1 w2 r', hs = pre ++ h :: post /\ all_decline acc pre w w1 /\ acc h w1 = Ok (true, w2) /\ run h out w2 = Ok (r', o, w') /\
    r = match r' with ROk _ => ROk h | RErr e => RErr e end.
Proof.
  intros O acc run hs out. induction hs as [|g hs IH]; intros w r o w' E; cbn [try_file_handlers all_decline] in *.
  - injection E as <- <- <-. left. auto.
  - destruct (acc g w) as [[[] w1]| |] eqn:A; cbn [bind] in E; try discriminate.
    + right. exists [], g, hs, w, w1. destruct (run g out w1) as [[[[[]|e] o1] w2]| |] eqn:R; cbn [bind] in E; try discriminate;
        injection E as <- <- <-; eexists; cbn [all_decline app]; repeat (split; [first [reflexivity|eassumption]|]); reflexivity.
    + destruct (IH _ _ _ _ E) as [(D & -> & ->)|(pre & h & post & wa & wb & r' & -> & D & A' & R & ->)].
      * left. split; [|auto]. exists w1. auto.
      * right. exists (g :: pre), h, post, wa, wb, r'. cbn [all_decline app]. split; [reflexivity|]. split; [exists w1; auto|]. auto.
Qed.

(** ** Who was called *)
Definition log_step {O} (k : nat) (run : H -> O -> W -> res (result unit transform_error * O * W)) (h : H) (out : O) (w : W * list nat) :=
  do r <- run h out (fst w) ;; let '(r, o, w1) := r in Ok (r, o, (w1, snd w ++ [k])).
End Multi.

Section Watch.
Context {B W : Type}.
Notation H := (handler B W).
Notation H2 := (handler B (W * list nat)).

Lemma watch_gen : forall {O} (acc : H -> W -> res (bool * W)) (run : H -> O -> W -> res (result unit transform_error * O * W))
    (acc2 : H2 -> W * list nat -> res (bool * (W * list nat))) (run2 : H2 -> O -> W * list nat -> res (result unit transform_error * O * (W * list nat))),
  (forall k h w, acc2 (watched k h) w = (do r <- acc h (fst w) ;; let '(a, w1) := r in Ok (a, (w1, snd w)))) ->
  (forall k h o w, run2 (watched k h) o w = (do r <- run h o (fst w) ;; let '(r, o, w1) := r in Ok (r, o, (w1, snd w ++ [k])))) ->
  forall hs k out w log r o w' log', try_handlers acc2 run2 (watched_from k hs) out (w, log) = Ok (r, o, (w', log')) ->
  (log' = log /\ all_decline acc hs w w' /\ r = RErr NoSupportedHandler /\ o = out) \/
  exists pre h post w1 w2 r', hs = pre ++ h :: post /\ all_decline acc pre w w1 /\ acc h w1 = Ok (true, w2) /\ run h out w2 = Ok (r', o, w') /\
    log' = log ++ [(k + List.length pre)%nat].
Proof.
  intros O acc run acc2 run2 HA HR. induction hs as [|h hs IH]; intros k out w log r o w' log' E; cbn [watched_from try_handlers all_decline] in *.
  - injection E as <- <- <- <-. left. auto.
  - rewrite HA in E. cbn [fst snd] in E. destruct (acc h w) as [[[] w1]| |] eqn:A; cbn [bind] in E; try discriminate.
    + right. exists [], h, hs, w, w1. rewrite HR in E. cbn [fst snd] in E.
      destruct (run h out w1) as [[[[[]|e] o1] w2]| |] eqn:R; cbn [bind] in E; try discriminate;
        injection E as <- <- <- <-; eexists; cbn [all_decline app List.length]; rewrite Nat.add_0_r; repeat (split; [first [reflexivity|eassumption]|]); reflexivity.
    + destruct (IH _ _ _ _ _ _ _ _ E) as [(-> & D & -> & ->)|(pre & g & post & wa & wb & r' & -> & D & A' & R & ->)].
      * left. split; [reflexivity|]. split; [exists w1; auto|auto].
      * right. exists (h :: pre), g, post, wa, wb, r'. cbn [all_decline app List.length]. rewrite Nat.add_succ_r.
        split; [reflexivity|]. split; [exists w1; auto|]. auto.
Qed.
End Watch.

(** ** Files *)
Lemma set_other : forall fs p d q, q <> p -> set_file fs p d q = fs q.
Proof. intros fs p d q N. unfold set_file. destruct (String.eqb_spec q p); [contradiction|reflexivity]. Qed.
Lemma set_same : forall fs p d, set_file fs p d p = Some d.
Proof. intros fs p d. unfold set_file. rewrite String.eqb_refl. reflexivity. Qed.

Section Files.
Context {B W : Type}.
Notation H := (handler B W).

Lemma into_other : forall o (run : list byte -> W -> res (result unit transform_error * list byte * W)) ip n op fs w r fs' w',
  into_new_file o run ip n op fs w = Ok (r, fs', w') -> forall q, q <> op -> fs' q = fs q.
Proof.
  intros o run ip n op fs w r fs' w' E q N. unfold into_new_file, create_preallocated in E. destruct (create_ok o op); [|injection E as _ <- _; reflexivity].
  destruct (negb (map_ok o op)); [injection E as _ <- _; apply set_other, N|].
  destruct (match ip with Some p => String.eqb p op | None => false end); [discriminate|]. rewrite set_same in E.
  destruct (run _ w) as [[[r1 o1] w1]| |]; cbn [bind] in E; try discriminate. injection E as _ <- _. rewrite !set_other by exact N. reflexivity.
Qed.

Lemma call_other : forall ext (k : file_call B W) fs w fs' w', run_call ext k fs w = Ok (fs', w') -> forall q, q <> output_of k -> fs' q = fs q.
Proof.
  assert (A : forall R (r : res (R * files * W)) fs' w', after r = Ok (fs', w') -> exists x, r = Ok (x, fs', w')).
  { intros R [[[x f] w0]| |] fs' w' E; cbn in E; try discriminate. injection E as <- <-. exists x. reflexivity. }
  intros ext k fs w fs' w' E q N.
  destruct k as [o h from to b|o h from to|o hs from to b|o hs from to|o h d to b|o h d to|o hs d to b e|o hs d to e]; cbn [output_of run_call] in *; apply A in E as (x & E).
  - unfold transform_file_with_handler in E. destruct (map_input o fs from); [|injection E as _ <- _; reflexivity]. exact (into_other _ _ _ _ _ _ _ _ _ _ E q N).
  - unfold untransform_file_with_handler in E. destruct (map_input o fs from); [|injection E as _ <- _; reflexivity]. exact (into_other _ _ _ _ _ _ _ _ _ _ E q N).
  - unfold transform_file_with_multiple_handlers in E. destruct (map_input o fs from); [|injection E as _ <- _; reflexivity].
    destruct (tryf_inv _ _ _ _ _ _ _ _ E) as [(_ & _ & ->)|(? & ? & ? & ? & ? & ? & _ & _ & _ & R & _)]; [reflexivity|]. exact (into_other _ _ _ _ _ _ _ _ _ _ R q N).
  - unfold untransform_file_with_multiple_handlers in E. destruct (map_input o fs from); [|injection E as _ <- _; reflexivity].
    destruct (tryf_inv _ _ _ _ _ _ _ _ E) as [(_ & _ & ->)|(? & ? & ? & ? & ? & ? & _ & _ & _ & R & _)]; [reflexivity|]. exact (into_other _ _ _ _ _ _ _ _ _ _ R q N).
  - exact (into_other _ _ _ _ _ _ _ _ _ _ E q N).
  - exact (into_other _ _ _ _ _ _ _ _ _ _ E q N).
  - destruct (tryf_inv _ _ _ _ _ _ _ _ E) as [(_ & _ & ->)|(? & ? & ? & ? & ? & ? & _ & _ & _ & R & _)]; [reflexivity|]. exact (into_other _ _ _ _ _ _ _ _ _ _ R q N).
  - destruct (tryf_inv _ _ _ _ _ _ _ _ E) as [(_ & _ & ->)|(? & ? & ? & ? & ? & ? & _ & _ & _ & R & _)]; [reflexivity|]. exact (into_other _ _ _ _ _ _ _ _ _ _ R q N).
Qed.

Lemma calls_other : forall ext (ks : list (file_call B W)) fs w fs' w', run_calls ext ks fs w = Ok (fs', w') ->
  forall q, (forall k, In k ks -> q <> output_of k) -> fs' q = fs q.
Proof.
  intros ext. induction ks as [|k ks IH]; intros fs w fs' w' E q N; cbn [run_calls] in E; [injection E as <- _; reflexivity|].
  destruct (run_call ext k fs w) as [[f1 w1]| |] eqn:R; cbn [bind fst snd] in E; try discriminate.
  rewrite (IH _ _ _ _ E q) by (intros; apply N; right; assumption). exact (call_other _ _ _ _ _ _ R q (N k (or_introl eq_refl))).
Qed.

Lemma zlen_fresh : forall (f : Z -> byte) n, 0 <= n -> zlen (map f (zseq 0 (Z.to_nat n))) = n.
Proof. intros f n Hn. unfold zlen. rewrite map_length, zseq_length. lia. Qed.

Lemma into_success : forall o run ip n op fs w r fs' w', 0 <= n ->
  into_new_file (W := W) o run ip n op fs w = Ok (ROk r, fs', w') ->
  exists out y, zlen out = n /\ run out w = Ok (ROk tt, y, w') /\ fs' op = Some y /\ create_ok o op = true /\ map_ok o op = true /\ (forall p, ip = Some p -> p <> op).
Proof.
  intros o run ip n op fs w r fs' w' Hn E. unfold into_new_file, create_preallocated in E. destruct (create_ok o op) eqn:C; [|discriminate].
  destruct (map_ok o op) eqn:M; cbn [negb] in E; [|discriminate].
  destruct (match ip with Some p => String.eqb p op | None => false end) eqn:S; [discriminate|]. rewrite set_same in E.
  set (out := map (fresh o op n) (zseq 0 (Z.to_nat n))) in *. destruct (run out w) as [[[[[]|e] o1] w1]| |] eqn:R; cbn [bind] in E; try discriminate.
  injection E as _ <- <-. exists out, o1. split; [apply zlen_fresh, Hn|]. split; [exact R|]. split; [apply set_same|]. split; [reflexivity|]. split; [reflexivity|].
  intros p -> Q. subst p. rewrite String.eqb_refl in S. discriminate.
Qed.
Lemma into_run : forall o run ip n op fs w (P : list byte -> Prop), 0 <= n -> create_ok o op = true -> map_ok o op = true -> (forall p, ip = Some p -> p <> op) ->
  (forall out, zlen out = n -> exists y w', run out w = Ok (ROk tt, y, w') /\ P y) ->
  exists fs' w' y, into_new_file (W := W) o run ip n op fs w = Ok (ROk tt, fs', w') /\ fs' op = Some y /\ P y.
Proof.
  intros o run ip n op fs w P Hn C M S R. unfold into_new_file, create_preallocated. rewrite C, M. cbn [negb].
  replace (match ip with Some p => String.eqb p op | None => false end) with false.
  2:{ destruct ip as [p|]; [|reflexivity]. symmetry. apply String.eqb_neq. apply S. reflexivity. }
  rewrite set_same. destruct (R (map (fresh o op n) (zseq 0 (Z.to_nat n))) (zlen_fresh _ _ Hn)) as (y & w' & -> & Py). cbn [bind].
  do 3 eexists. split; [reflexivity|]. split; [apply set_same|exact Py].
Qed.

(** ** Going there and back *)
Lemma slice_transform_id : forall (h : H) x out b w, zlen out = zlen x -> transform_slice_with_bundle h x out b w = h_transform h b x out w.
Proof. intros h x out b w L. unfold transform_slice_with_bundle. replace (zlen out <? zlen x) with false by lia. reflexivity. Qed.
Lemma slice_untransform_id : forall (h : H) x out w, zlen out = zlen x -> untransform_slice h x out w = h_untransform h x out w.
Proof. intros h x out w L. unfold untransform_slice. replace (zlen out <? zlen x) with false by lia. reflexivity. Qed.

Lemma transform_file_inv : forall o (h : H) p1 p2 b fs w fs1 w1, transform_file_with_handler o h p1 p2 b fs w = Ok (ROk tt, fs1, w1) ->
  exists x out y, fs p1 = Some x /\ p1 <> p2 /\ zlen out = zlen x /\ h_transform h b x out w = Ok (ROk tt, y, w1) /\ fs1 p2 = Some y.
Proof.
  intros o h p1 p2 b fs w fs1 w1 E. unfold transform_file_with_handler, map_input in E. destruct (fs p1) as [x|] eqn:F; [|discriminate].
  destruct (open_ok o p1 && map_ok o p1)%bool; [|discriminate].
  destruct (into_success _ _ _ _ _ _ _ _ _ _ (zlen_nonneg _ x) E) as (out & y & L & R & G & _ & _ & N).
  rewrite slice_transform_id in R by exact L. exists x, out, y. split; [reflexivity|]. split; [apply N; reflexivity|]. auto.
Qed.
Lemma untransform_file_inv : forall o (h : H) p1 p2 fs w fs1 w1, untransform_file_with_handler o h p1 p2 fs w = Ok (ROk tt, fs1, w1) ->
  exists x out y, fs p1 = Some x /\ p1 <> p2 /\ zlen out = zlen x /\ h_untransform h x out w = Ok (ROk tt, y, w1) /\ fs1 p2 = Some y.
Proof.
  intros o h p1 p2 fs w fs1 w1 E. unfold untransform_file_with_handler, map_input in E. destruct (fs p1) as [x|] eqn:F; [|discriminate].
  destruct (open_ok o p1 && map_ok o p1)%bool; [|discriminate].
  destruct (into_success _ _ _ _ _ _ _ _ _ _ (zlen_nonneg _ x) E) as (out & y & L & R & G & _ & _ & N).
  rewrite slice_untransform_id in R by exact L. exists x, out, y. split; [reflexivity|]. split; [apply N; reflexivity|]. auto.
Qed.

Lemma file_round_trip : forall o1 o2 (h u : H) p1 p2 p3 b fs fs1 fs2 x w w1 w2,
  undoes u h x -> fs p1 = Some x -> p2 <> p3 -> io_works o2 p2 p3 ->
  transform_file_with_handler o1 h p1 p2 b fs w = Ok (ROk tt, fs1, w1) -> fs2 p2 = fs1 p2 ->
  exists fs3 w3, untransform_file_with_handler o2 u p2 p3 fs2 w2 = Ok (ROk tt, fs3, w3) /\ fs3 p3 = Some x.
Proof.
  intros o1 o2 h u p1 p2 p3 b fs fs1 fs2 x w w1 w2 HU F N (IO1 & IO2 & IO3 & IO4) E S.
  destruct (transform_file_inv _ _ _ _ _ _ _ _ _ E) as (x' & out & y & F' & _ & L & R & G). rewrite F in F'. injection F' as <-.
  destruct (HU _ _ _ _ _ L R) as (LY & U). unfold untransform_file_with_handler, map_input. rewrite S, G, IO1, IO2. cbn [andb].
  edestruct (into_run o2 (fun out w => untransform_slice u y out w) (Some p2) (zlen y) p3 fs2 w2 (fun z => z = x)) as (fs3 & w3 & z & Q1 & Q2 & ->).
  - apply zlen_nonneg.
  - exact IO3.
  - exact IO4.
  - intros p Q. injection Q as <-. exact N.
  - intros out2 L2. rewrite slice_untransform_id by exact L2. destruct (U out2 w2 ltac:(lia)) as (w3 & U'). exists x, w3. auto.
  - exists fs3, w3. auto.
Qed.

Lemma file_same_size : forall o (h : H) p1 p2 b fs fs1 x w w1, keeps_length h x -> fs p1 = Some x ->
  transform_file_with_handler o h p1 p2 b fs w = Ok (ROk tt, fs1, w1) -> exists y, fs1 p2 = Some y /\ zlen y = zlen x.
Proof.
  intros o h p1 p2 b fs fs1 x w w1 (K & _) F E. destruct (transform_file_inv _ _ _ _ _ _ _ _ _ E) as (x' & out & y & F' & _ & L & R & G).
  rewrite F in F'. injection F' as <-. exists y. split; [exact G|]. rewrite (K _ _ _ _ _ L R). exact L.
Qed.
Lemma file_same_size_back : forall o (h : H) p1 p2 fs fs1 x w w1, keeps_length h x -> fs p1 = Some x ->
  untransform_file_with_handler o h p1 p2 fs w = Ok (ROk tt, fs1, w1) -> exists y, fs1 p2 = Some y /\ zlen y = zlen x.
Proof.
  intros o h p1 p2 fs fs1 x w w1 (_ & K) F E. destruct (untransform_file_inv _ _ _ _ _ _ _ _ E) as (x' & out & y & F' & _ & L & R & G).
  rewrite F in F'. injection F' as <-. exists y. split; [exact G|]. rewrite (K _ _ _ _ L R). exact L.
Qed.
End Files.

(** ** Handlers in a list *)
Section FileMulti.
Context {B W : Type}.
Notation H := (handler B W).
Variable ext : path -> option string.

Lemma transform_files_first : forall o pre (h : H) post p1 p2 b fs w w1 w2 x, map_input o fs p1 = ROk x ->
  all_decline (fun g => h_can_handle g x (ext p1)) pre w w1 -> h_can_handle h x (ext p1) w1 = Ok (true, w2) ->
  transform_file_with_multiple_handlers ext o (pre ++ h :: post) p1 p2 b fs w =
  match transform_file_with_handler o h p1 p2 b fs w2 with
  | Ok (ROk _, fs', w') => Ok (ROk h, fs', w') | Ok (RErr e, fs', w') => Ok (RErr e, fs', w') | Panic y => Panic y | Ub y => Ub y
  end.
Proof.
  intros o pre h post p1 p2 b fs w w1 w2 x M D A. unfold transform_file_with_multiple_handlers, transform_file_with_handler. rewrite M.
  exact (tryf_first _ _ _ _ _ _ _ _ _ D A).
Qed.
Lemma untransform_files_first : forall o pre (h : H) post p1 p2 fs w w1 w2 x, map_input o fs p1 = ROk x ->
  all_decline (fun g => h_can_handle_untransform g x (ext p1)) pre w w1 -> h_can_handle_untransform h x (ext p1) w1 = Ok (true, w2) ->
  untransform_file_with_multiple_handlers ext o (pre ++ h :: post) p1 p2 fs w =
  match untransform_file_with_handler o h p1 p2 fs w2 with
  | Ok (ROk _, fs', w') => Ok (ROk h, fs', w') | Ok (RErr e, fs', w') => Ok (RErr e, fs', w') | Panic y => Panic y | Ub y => Ub y
  end.
Proof.
  intros o pre h post p1 p2 fs w w1 w2 x M D A. unfold untransform_file_with_multiple_handlers, untransform_file_with_handler. rewrite M.
  exact (tryf_first _ _ _ _ _ _ _ _ _ D A).
Qed.
Lemma files_none : forall o (hs : list H) p1 p2 b fs w w1 x, map_input o fs p1 = ROk x ->
  (all_decline (fun g => h_can_handle g x (ext p1)) hs w w1 ->
   transform_file_with_multiple_handlers ext o hs p1 p2 b fs w = Ok (RErr (FTransform NoSupportedHandler), fs, w1)) /\
  (all_decline (fun g => h_can_handle_untransform g x (ext p1)) hs w w1 ->
   untransform_file_with_multiple_handlers ext o hs p1 p2 fs w = Ok (RErr (FTransform NoSupportedHandler), fs, w1)).
Proof.
  intros o hs p1 p2 b fs w w1 x M. unfold transform_file_with_multiple_handlers, untransform_file_with_multiple_handlers. rewrite M.
  split; intros D; exact (tryf_none _ _ _ _ _ _ D).
Qed.
Lemma files_multi_inv : forall o (hs : list H) p1 p2 b fs w h fs' w',
  transform_file_with_multiple_handlers ext o hs p1 p2 b fs w = Ok (ROk h, fs', w') ->
  exists w2, transform_file_with_handler o h p1 p2 b fs w2 = Ok (ROk tt, fs', w').
Proof.
  intros o hs p1 p2 b fs w h fs' w' E. unfold transform_file_with_multiple_handlers, transform_file_with_handler in *.
  destruct (map_input o fs p1) as [x|e]; [|discriminate].
  destruct (tryf_inv _ _ _ _ _ _ _ _ E) as [(_ & Q & _)|(pre & g & post & wa & wb & r' & _ & _ & _ & R & Q)]; [discriminate|].
  destruct r' as [[]|e]; [|discriminate]. injection Q as ->. exists wb. exact R.
Qed.

End FileMulti.

(** ** Into a slice *)
Section IntoSlice.
Context {B W : Type}.
Notation H := (handler B W).
Lemma into_prefix_ok : forall (run : list byte -> W -> res (result unit transform_error * list byte * W)) n out w y w1, 0 <= n <= zlen out ->
  run (firstn (Z.to_nat n) out) w = Ok (ROk tt, y, w1) -> zlen y = n ->
  into_prefix run n out w = Ok (ROk tt, y ++ skipn (Z.to_nat n) out, w1).
Proof.
  intros run n out w y w1 Hn R L. unfold into_prefix. replace (zlen out <? n) with false by lia. unfold range.
  replace ((0 <=? 0) && (0 <=? n) && (n <=? zlen out))%bool with true by (destruct (Z.leb_spec 0 0), (Z.leb_spec 0 n), (Z.leb_spec n (zlen out)); try reflexivity; lia).
  cbn [bind]. unfold slice at 1. rewrite Z.sub_0_r. change (Z.to_nat 0) with 0%nat. rewrite skipn_O. rewrite R. cbn [bind].
  rewrite splice_at_0. replace (List.length y) with (Z.to_nat n) by (unfold zlen in L; lia). reflexivity.
Qed.
Lemma into_prefix_inv : forall (run : list byte -> W -> res (result unit transform_error * list byte * W)) n out w out1 w1, 0 <= n ->
  into_prefix run n out w = Ok (ROk tt, out1, w1) ->
  n <= zlen out /\ exists y, run (firstn (Z.to_nat n) out) w = Ok (ROk tt, y, w1) /\ out1 = y ++ skipn (List.length y) out.
Proof.
  intros run n out w out1 w1 Hn E. unfold into_prefix in E. destruct (zlen out <? n) eqn:L; [discriminate|]. split; [lia|]. unfold range in E.
  replace ((0 <=? 0) && (0 <=? n) && (n <=? zlen out))%bool with true in E by (destruct (Z.leb_spec 0 0), (Z.leb_spec 0 n), (Z.leb_spec n (zlen out)); try reflexivity; lia).
  cbn [bind] in E. unfold slice at 1 in E. rewrite Z.sub_0_r in E. change (Z.to_nat 0) with 0%nat in E. rewrite skipn_O in E.
  destruct (run (firstn (Z.to_nat n) out) w) as [[[[[]|e] y] w2]| |] eqn:R; cbn [bind] in E; try discriminate. injection E as <- <-.
  exists y. split; [reflexivity|]. apply splice_at_0.
Qed.

(** A file transformed into a slice and back into a slice. *)
Lemma slice_file_round : forall o1 o2 (h u : H) p b fs fs2 p2 x out out1 w w1 w2 out2, undoes u h x ->
  fs p = Some x -> transform_file_to_slice_with_handler o1 h p out b fs w = Ok (ROk tt, out1, w1) ->
  exists y, out1 = y ++ skipn (List.length x) out /\ List.length y = List.length x /\
    (fs2 p2 = Some y -> open_ok o2 p2 = true -> map_ok o2 p2 = true -> zlen x <= zlen out2 ->
     exists w3, untransform_file_to_slice_with_handler o2 u p2 out2 fs2 w2 = Ok (ROk tt, x ++ skipn (List.length x) out2, w3)).
Proof.
  intros o1 o2 h u p b fs fs2 p2 x out out1 w w1 w2 out2 HU F E. unfold transform_file_to_slice_with_handler, map_input in E. rewrite F in E.
  destruct (open_ok o1 p && map_ok o1 p)%bool; [|discriminate].
  destruct (into_prefix_inv _ _ _ _ _ _ (zlen_nonneg _ x) E) as (L & y & R & Y).
  assert (LF : zlen (firstn (Z.to_nat (zlen x)) out) = zlen x) by (unfold zlen in *; rewrite firstn_length; lia).
  rewrite slice_transform_id in R by exact LF. destruct (HU _ _ _ _ _ LF R) as (LY & U). pose proof (zlen_eq _ _ LY) as LN.
  exists y. rewrite <- LN at 1. split; [exact Y|]. split; [exact LN|]. intros F2 O2 M2 L2.
  unfold untransform_file_to_slice_with_handler, map_input. rewrite F2, O2, M2. cbn [andb].
  assert (LF2 : zlen (firstn (Z.to_nat (zlen x)) out2) = zlen x) by (unfold zlen in *; rewrite firstn_length; lia).
  destruct (U _ w2 LF2) as (w3 & U'). exists w3. rewrite (into_prefix_ok _ _ _ _ x w3); [| | |].
  - repeat f_equal. unfold zlen. rewrite LN. apply Nat2Z.id.
  - pose proof (zlen_nonneg _ x). lia.
  - rewrite LY. rewrite slice_untransform_id by lia. exact U'.
  - symmetry. exact LY.
Qed.
End IntoSlice.

(** ** The DDS handler *)
Section DdsFile.
Context {St Er1 : Type}.

Lemma dds_undoes : forall (show1 show2 : Er1 -> string) c1 c2 v1 v2 x,
  supported c1 -> supported c2 -> 2 ^ 32 - 1 <= usize_max v1 -> zlen x <= usize_max v2 ->
  (c_debug c1 = true \/ c_debug c2 = true -> levels_fit x /\ forall i, parse_dds (c_debug c1) x = Ok (Some i) -> 0 < i_data_length i) ->
  undoes (dds_handler (St := St) show2 c2 v2) (dds_handler show1 c1 v1) x.
Proof.
  intros show1 show2 c1 c2 v1 v2 x K1 K2 U1 U2 D b out w y w1 L E. cbn [h_transform dds_handler] in E.
  destruct (transform_parses _ _ _ _ _ _ _ _ _ E) as (i & P).
  assert (LY : zlen y = zlen x).
  { destruct (transform_success _ _ _ _ _ _ _ _ _ _ K1 P ltac:(intros Q; apply D; auto) U1 E) as (k & s & _ & _ & Hm & Hl & _ & _ & ->).
    destruct (parse_facts _ _ _ (proj2 (parse_dds_facts _ _ _ P))) as (_ & _ & _ & _ & Hn & Ho & Hx).
    assert (LL : zlen (texture_layout k s (slice x (i_data_offset i) (i_data_length i))) = i_data_length i).
    { unfold zlen at 1. rewrite layout_len by (rewrite zlen_slice by lia; exact Hm). apply zlen_slice; lia. }
    rewrite !zlen_app, LL, !zlen_slice by lia. change (zlen (u32_bytes (codec_header k s))) with 4.
    rewrite skipn_all2 by (unfold zlen in L; lia). rewrite zlen_nil. lia. }
  split; [exact LY|]. intros out2 w2 L2. exists w2. cbn [h_untransform dds_handler].
  pose proof (dds_round_trip _ _ show1 c1 c2 v1 v2 b x out out2 w w1 y i K1 K2 P ltac:(intros Q; apply D; auto) ltac:(intros Q _; apply D; auto) U1 U2 E ltac:(lia) ltac:(auto)) as RT.
  rewrite firstn_all2 in RT by (unfold zlen in LY; lia). rewrite RT. cbn [bind fst snd].
  rewrite skipn_all2 by (unfold zlen in L2; lia). rewrite app_nil_r. reflexivity.
Qed.

Lemma dds_keeps_length : forall (show : Er1 -> string) c v x, supported c -> 2 ^ 32 + 147 <= usize_max v ->
  (c_debug c = true -> levels_fit x /\ forall i, parse_dds_ignore_magic true x = Ok (Some i) -> 0 < i_data_length i) ->
  keeps_length (dds_handler (St := St) show c v) x.
Proof.
  intros show c v x K U D. split.
  - intros b out w y w1 L E. cbn [h_transform dds_handler] in E. destruct (transform_parses _ _ _ _ _ _ _ _ _ E) as (i & P).
    assert (HD : c_debug c = true -> 0 < i_data_length i).
    { intros Q. apply D; [exact Q|]. rewrite Q in P. apply (parse_dds_facts _ _ _ P). }
    assert (U32 : 2 ^ 32 - 1 <= usize_max v) by lia.
    destruct (transform_success _ _ _ _ _ _ _ _ _ _ K P HD U32 E) as (k & s & _ & _ & Hm & Hl & _ & _ & ->).
    destruct (parse_facts _ _ _ (proj2 (parse_dds_facts _ _ _ P))) as (_ & _ & _ & _ & Hn & Ho & Hx).
    assert (LL : zlen (texture_layout k s (slice x (i_data_offset i) (i_data_length i))) = i_data_length i).
    { unfold zlen at 1. rewrite layout_len by (rewrite zlen_slice by lia; exact Hm). apply zlen_slice; lia. }
    rewrite !zlen_app, LL, !zlen_slice by lia. change (zlen (u32_bytes (codec_header k s))) with 4.
    rewrite skipn_all2 by (unfold zlen in L; lia). rewrite zlen_nil. lia.
  - intros out w y w1 L E. cbn [h_untransform dds_handler] in E.
    destruct (untransform_total c v x out K U D ltac:(intros; lia)) as (r & o & E' & LO). rewrite E' in E. cbn [bind fst snd] in E. injection E as _ <- _. exact LO.
Qed.

(** A transformed file is recognised. *)
Lemma transformed_recognised : forall (show : Er1 -> string) c1 c2 v1 (b : bundle St Er1) x out y st st', supported c1 -> 2 ^ 32 - 1 <= usize_max v1 ->
  (c_debug c1 = true -> forall i, parse_dds true x = Ok (Some i) -> 0 < i_data_length i) -> (c_debug c2 = true -> c_debug c1 = false -> levels_fit x) ->
  zlen out = zlen x -> dds_transform_bundle show c1 v1 b x out st = Ok (ROk tt, y, st') ->
  forall e, (e = None \/ e = Some "dds"%string) -> dds_can_handle_untransform (c_debug c2) y e = Ok true.
Proof.
  intros show c1 c2 v1 b x out y st st' K1 U1 HD HF L E e He.
  destruct (transform_parses _ _ _ _ _ _ _ _ _ E) as (i & P).
  destruct (transform_success _ _ _ _ _ _ _ _ _ _ K1 P ltac:(intros Q; rewrite Q in P; auto) U1 E) as (k & s & _ & _ & Hm & Hl & _ & _ & Y).
  destruct (parse_dds_facts _ _ _ P) as (_ & P').
  destruct (parse_facts _ _ _ P') as (_ & _ & HB & _ & Hn & Ho & Hx).
  set (off := i_data_offset i) in *. set (n := i_data_length i) in *.
  set (L1 := texture_layout k s (slice x off n)) in *.
  assert (LL : zlen L1 = n).
  { unfold L1. unfold zlen at 1. rewrite layout_len by (rewrite zlen_slice by lia; exact Hm). apply zlen_slice; lia. }
  rewrite (skipn_all2 (n := List.length x) out) in Y by (unfold zlen in L; lia). rewrite app_nil_r in Y.
  assert (LY : zlen y = zlen x).
  { rewrite Y, !zlen_app, LL, !zlen_slice by lia. change (zlen (u32_bytes (codec_header k s))) with 4. lia. }
  assert (P2 : parse_dds_ignore_magic (c_debug c2) y = Ok (Some i)).
  { rewrite (parse_cong (c_debug c2) x); [exact (parse_other _ _ _ _ P' HF)|symmetry; exact LY|].
    intros w H1 H2. rewrite Y.
    assert (X : x = slice x 0 4 ++ slice x 4 (off - 4) ++ slice x off n ++ slice x (off + n) (zlen x - (off + n))).
    { rewrite (cut3 x off n) at 1 by lia. assert (Q : slice x 0 off = slice x 0 4 ++ slice x 4 (off - 4)).
      { replace off with (4 + (off - 4)) at 1 by lia. rewrite slice_app_split by lia. reflexivity. }
      rewrite Q, <- app_assoc. reflexivity. }
    transitivity (word (slice x 0 4 ++ slice x 4 (off - 4) ++ slice x off n ++ slice x (off + n) (zlen x - (off + n))) w); [apply word_mid|rewrite <- X; reflexivity].
    - apply zlen_eq. rewrite zlen_slice by lia. reflexivity.
    - change (zlen (u32_bytes (codec_header k s))) with 4. lia.
    - change (zlen (u32_bytes (codec_header k s))) with 4. rewrite zlen_slice by lia. lia. }
  unfold dds_can_handle_untransform. rewrite P2. replace (zlen y <? 4) with false by lia.
  destruct He as [->| ->]; reflexivity.
Qed.

Lemma dds_files_round : forall ext o1 o2 (show1 show2 : Er1 -> string) c1 c2 v1 v2 (hs pre post : list (handler (bundle St Er1) St)) p1 p2 p3 b (fs fs1 fs2 : files) x w w1 w2 w3,
  supported c1 -> supported c2 -> 2 ^ 32 - 1 <= usize_max v1 -> zlen x <= usize_max v2 ->
  (c_debug c1 = true \/ c_debug c2 = true -> levels_fit x /\ forall i, parse_dds (c_debug c1) x = Ok (Some i) -> 0 < i_data_length i) ->
  fs p1 = Some x -> p2 <> p3 -> io_works o2 p2 p3 -> (ext p2 = None \/ ext p2 = Some "dds"%string) ->
  transform_file_with_multiple_handlers ext o1 hs p1 p2 b fs w = Ok (ROk (dds_handler (St := St) show1 c1 v1), fs1, w1) ->
  fs2 p2 = fs1 p2 ->
  (forall y, fs1 p2 = Some y -> all_decline (fun h => h_can_handle_untransform h y (ext p2)) pre w2 w3) ->
  exists (fs3 : files) w4, untransform_file_with_multiple_handlers ext o2 (pre ++ dds_handler show2 c2 v2 :: post) p2 p3 fs2 w2 = Ok (ROk (dds_handler show2 c2 v2), fs3, w4) /\ fs3 p3 = Some x.
Proof.
  intros ext o1 o2 show1 show2 c1 c2 v1 v2 hs pre post p1 p2 p3 b fs fs1 fs2 x w w1 w2 w3 K1 K2 U1 U2 D F N IO HE E S DE.
  destruct (files_multi_inv _ _ _ _ _ _ _ _ _ _ _ E) as (wm & E1).
  pose proof (dds_undoes show1 show2 c1 c2 v1 v2 x K1 K2 U1 U2 D) as UN.
  destruct (transform_file_inv _ _ _ _ _ _ _ _ _ E1) as (x' & out & y & F' & _ & L & R & G). rewrite F in F'. injection F' as <-.
  destruct (file_round_trip o1 o2 _ _ p1 p2 p3 b fs fs1 fs2 x wm w1 w3 UN F N IO E1 S) as (fs3 & w4 & Q & FX).
  exists fs3, w4. split; [|exact FX]. destruct IO as (IO1 & IO2 & _ & _).
  rewrite (untransform_files_first ext o2 pre _ post p2 p3 fs2 w2 w3 w3 y).
  - rewrite Q. reflexivity.
  - unfold map_input. rewrite S, G, IO1, IO2. reflexivity.
  - exact (DE y G).
  - cbn [h_can_handle_untransform dds_handler]. cbn [h_transform dds_handler] in R.
    rewrite (transformed_recognised show1 c1 c2 v1 b x out y wm w1 K1 U1) with (e := ext p2); [reflexivity| | |exact L|exact R|exact HE].
    + intros Q1 i P. apply (proj2 (D (or_introl Q1))). rewrite Q1. exact P.
    + intros Q1 _. apply D. auto.
Qed.
End DdsFile.

(** ** The slice functions *)
Section SliceMulti.
Lemma multi_first : forall (B W : Type) (pre : list (handler B W)) (h : handler B W) (post : list (handler B W)) (input output : list byte) (b : B) (w w1 w2 : W),
  zlen input <= zlen output ->
  (all_decline (fun g => h_can_handle g input None) pre w w1 -> h_can_handle h input None w1 = Ok (true, w2) ->
   transform_slice_with_multiple_handlers (pre ++ h :: post) input output b w =
   match h_transform h b input output w2 with
   | Ok (ROk _, o, w3) => Ok (ROk h, o, w3) | Ok (RErr e, o, w3) => Ok (RErr e, o, w3) | Panic y => Panic y | Ub y => Ub y
   end) /\
  (all_decline (fun g => h_can_handle_untransform g input None) pre w w1 -> h_can_handle_untransform h input None w1 = Ok (true, w2) ->
   untransform_slice_with_multiple_handlers (pre ++ h :: post) input output w =
   match h_untransform h input output w2 with
   | Ok (ROk _, o, w3) => Ok (ROk h, o, w3) | Ok (RErr e, o, w3) => Ok (RErr e, o, w3) | Panic y => Panic y | Ub y => Ub y
   end).
Proof.
  intros B W pre h post input output b w w1 w2 L. unfold transform_slice_with_multiple_handlers, untransform_slice_with_multiple_handlers.
  replace (zlen output <? zlen input) with false by lia. split; intros D A; exact (try_first _ _ _ _ _ _ _ _ _ D A).
Qed.
Lemma multi_none : forall (B W : Type) (hs : list (handler B W)) (input output : list byte) (b : B) (w w1 : W), zlen input <= zlen output ->
  (all_decline (fun g => h_can_handle g input None) hs w w1 ->
   transform_slice_with_multiple_handlers hs input output b w = Ok (RErr NoSupportedHandler, output, w1)) /\
  (all_decline (fun g => h_can_handle_untransform g input None) hs w w1 ->
   untransform_slice_with_multiple_handlers hs input output w = Ok (RErr NoSupportedHandler, output, w1)).
Proof.
  intros B W hs input output b w w1 L. unfold transform_slice_with_multiple_handlers, untransform_slice_with_multiple_handlers.
  replace (zlen output <? zlen input) with false by lia. split; intros D; exact (try_none _ _ _ _ _ _ D).
Qed.
Lemma multi_short : forall (B W : Type) (hs : list (handler B W)) (h : handler B W) (input output : list byte) (b : B) (w : W), zlen output < zlen input ->
  let e := EFormatHandler (FhOutputBufferTooSmall (zlen input) (zlen output)) in
  transform_slice_with_multiple_handlers hs input output b w = Ok (RErr e, output, w) /\
  untransform_slice_with_multiple_handlers hs input output w = Ok (RErr e, output, w) /\
  transform_slice_with_bundle h input output b w = Ok (RErr e, output, w) /\
  untransform_slice h input output w = Ok (RErr e, output, w).
Proof.
  intros B W hs h input output b w L e. unfold transform_slice_with_multiple_handlers, untransform_slice_with_multiple_handlers, transform_slice_with_bundle, untransform_slice.
  replace (zlen output <? zlen input) with true by lia. auto.
Qed.
Lemma multi_watched : forall (B W : Type) (hs : list (handler B W)) (input output : list byte) (b : B) (w : W) r o w' (log : list nat),
  transform_slice_with_multiple_handlers (watched_from 0 hs) input output b (w, []) = Ok (r, o, (w', log)) ->
  (log = [] /\ exists e, r = RErr e /\ o = output) \/
  exists pre h post w1 w2 r', hs = pre ++ h :: post /\ all_decline (fun g => h_can_handle g input None) pre w w1 /\
    h_can_handle h input None w1 = Ok (true, w2) /\ h_transform h b input output w2 = Ok (r', o, w') /\ log = [List.length pre].
Proof.
  intros B W hs input output b w r o w' log E. unfold transform_slice_with_multiple_handlers in E. destruct (zlen output <? zlen input).
  - injection E as <- <- _ <-. left. eauto.
  - destruct (watch_gen (fun g => h_can_handle g input None) (fun g => h_transform g b input) _ _ (fun _ _ _ => eq_refl) (fun _ _ _ _ => eq_refl) _ _ _ _ _ _ _ _ _ E)
      as [(-> & _ & -> & ->)|Q]; [left; eauto|right; exact Q].
Qed.
Lemma multi_watched_back : forall (B W : Type) (hs : list (handler B W)) (input output : list byte) (w : W) r o w' (log : list nat),
  untransform_slice_with_multiple_handlers (watched_from 0 hs) input output (w, []) = Ok (r, o, (w', log)) ->
  (log = [] /\ exists e, r = RErr e /\ o = output) \/
  exists pre h post w1 w2 r', hs = pre ++ h :: post /\ all_decline (fun g => h_can_handle_untransform g input None) pre w w1 /\
    h_can_handle_untransform h input None w1 = Ok (true, w2) /\ h_untransform h input output w2 = Ok (r', o, w') /\ log = [List.length pre].
Proof.
  intros B W hs input output w r o w' log E. unfold untransform_slice_with_multiple_handlers in E. destruct (zlen output <? zlen input).
  - injection E as <- <- _ <-. left. eauto.
  - destruct (watch_gen (fun g => h_can_handle_untransform g input None) (fun g => h_untransform g input) _ _ (fun _ _ _ => eq_refl) (fun _ _ _ _ => eq_refl) _ _ _ _ _ _ _ _ _ E)
      as [(-> & _ & -> & ->)|Q]; [left; eauto|right; exact Q].
Qed.
End SliceMulti.
