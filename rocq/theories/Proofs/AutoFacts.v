(** The automatic search, for any format. *)
From Verif Require Import Base.Bytes Base.Res Model.Color565 Model.Ycc Model.Kernel Model.Transform Model.Auto
  Spec.YCoCg Spec.Layout Spec.Estimator Proofs.SliceFacts.
From Coq Require Import ZifyBool ZifyNat.

Lemma splice_splice : forall (o d d' : list byte) b, 0 <= b -> b + zlen d <= zlen o -> List.length d = List.length d' ->
  splice (splice o b d) b d' = splice o b d'.
Proof.
  intros o d d' b Hb Hl HL. unfold splice, zlen in *.
  rewrite firstn_app, firstn_firstn, Nat.min_id, firstn_length.
  replace (Z.to_nat b - Nat.min (Z.to_nat b) (List.length o))%nat with O by lia. cbn [firstn]. rewrite app_nil_r.
  f_equal. f_equal. rewrite <- HL.
  rewrite skipn_app, skipn_all2 by (rewrite firstn_length; lia). rewrite firstn_length. cbn [app].
  replace (Z.to_nat b + List.length d - Nat.min (Z.to_nat b) (List.length o))%nat with (List.length d) by lia.
  rewrite skipn_app, skipn_all, Nat.sub_diag. cbn [skipn app]. rewrite HL. reflexivity.
Qed.

(** Estimating some sections in turn and adding up. *)
Section Search.
Context {St Er S : Type}.
Variables (v : env) (e : estimator St Er).

Fixpoint est_all (ds : list (list byte)) (n acc : Z) (st : St) : result Z Er * St :=
  match ds with
  | [] => (ROk acc, st)
  | d :: ds => match estimate_compressed_size e st d n with
               | (RErr e1, st1) => (RErr e1, st1)
               | (ROk z, st1) => est_all ds n (acc + z) st1
               end
  end.

Variable shown : S -> list (list byte).
Fixpoint srch (n : Z) (order : list S) (best : S) (bs : Z) (st : St) : result S Er * St :=
  match order with
  | [] => (ROk best, st)
  | s :: r => match est_all (shown s) n 0 st with
              | (RErr e1, st1) => (RErr e1, st1)
              | (ROk z, st1) => if z <? bs then srch n r s z st1 else srch n r best bs st1
              end
  end.

Lemma srch_in : forall n order best bs st s st', srch n order best bs st = (ROk s, st') -> s = best \/ In s order.
Proof.
  intros n order. induction order as [|a r IH]; intros best bs st s st' H; cbn [srch] in H.
  - injection H as <- _. auto.
  - destruct (est_all _ _ _ _) as [[z|e1] st1]; [|discriminate]. destruct (z <? bs); apply IH in H; simpl; intuition.
Qed.

Variables (inp aux out : list byte) (b len : Z) (L : S -> list byte).
Variable transform : S -> mem -> res mem.
Variable estimate : Z -> mem -> St -> res (result Z Er * St).
Variable same : S -> S -> bool.
Variable order : list S.
Variable dflt : S.
Hypothesis HT : forall s o, zlen o = zlen out -> transform s (Mem inp aux o) = Ok (Mem inp aux (splice o b (L s))).
Hypothesis HL : forall s, zlen (L s) = len.
Hypothesis Hb : 0 <= b.
Hypothesis Ho : b + len <= zlen out.
Hypothesis HE : forall n s st, In s order -> estimate n (Mem inp aux (splice out b (L s))) st = Ok (est_all (shown s) n 0 st).
Hypothesis Hsame : forall a c, same a c = true <-> a = c.
Hypothesis Hne : order <> [].

Lemma loop_srch : forall n ord best bs last o st,
  (forall s, In s ord -> In s order) -> zlen o = zlen out ->
  (forall s, splice o b (L s) = splice out b (L s)) ->
  exists o', 
    match srch n ord best bs st with
    | (ROk s, st') => search_loop transform (estimate n) ord best bs last (Mem inp aux o) st = Ok (ROk (s, List.last ord last), Mem inp aux o', st') /\
        (ord = [] -> o' = o) /\ (ord <> [] -> o' = splice out b (L (List.last ord last)))
    | (RErr e1, st') => search_loop transform (estimate n) ord best bs last (Mem inp aux o) st = Ok (RErr e1, Mem inp aux o', st') /\ exists s, o' = splice out b (L s)
    end /\ zlen o' = zlen out /\ (forall s, splice o' b (L s) = splice out b (L s)).
Proof.
  intros n ord. induction ord as [|a r IH]; intros best bs last o st Hin Hz Hs.
  - exists o. cbn [srch search_loop]. repeat split; auto. congruence.
  - cbn [srch search_loop]. rewrite HT by exact Hz. cbn [bind]. rewrite Hs.
    rewrite HE by (apply Hin; left; reflexivity). cbn [bind].
    assert (Z1 : zlen (splice out b (L a)) = zlen out) by (apply zlen_splice; rewrite ?HL; assumption).
    assert (S1 : forall s, splice (splice out b (L a)) b (L s) = splice out b (L s)).
    { intros s. apply splice_splice; [assumption|rewrite HL; exact Ho|]. pose proof (HL a). pose proof (HL s). unfold zlen in *. lia. }
    destruct (est_all (shown a) n 0 st) as [[z|e1] st1].
    + assert (LAST : r <> [] -> List.last (a :: r) last = List.last r a).
      { intros Hr. clear -Hr. cbn [List.last]. destruct r as [|x r]; [congruence|]. clear Hr. revert x.
        induction r as [|y r IH]; intros x; [reflexivity|]. cbn [List.last]. apply IH. }
      assert (G : forall best' bs', exists o',
        match srch n r best' bs' st1 with
        | (ROk s, st') => search_loop transform (estimate n) r best' bs' a (Mem inp aux (splice out b (L a))) st1 = Ok (ROk (s, List.last (a :: r) last), Mem inp aux o', st') /\
            (a :: r = [] -> o' = o) /\ (a :: r <> [] -> o' = splice out b (L (List.last (a :: r) last)))
        | (RErr e1, st') => search_loop transform (estimate n) r best' bs' a (Mem inp aux (splice out b (L a))) st1 = Ok (RErr e1, Mem inp aux o', st') /\ exists s, o' = splice out b (L s)
        end /\ zlen o' = zlen out /\ (forall s, splice o' b (L s) = splice out b (L s))).
      { intros best' bs'. destruct (IH best' bs' a _ st1 (fun s H => Hin s (or_intror H)) Z1 S1) as (o' & A & B & C).
        exists o'. split; [|auto]. destruct (srch n r best' bs' st1) as [[s|e1] st']; [|exact A].
        destruct A as (A1 & A2 & A3). destruct r as [|x r].
        - rewrite A1. rewrite A2 by reflexivity. cbn [List.last]. repeat split; congruence.
        - rewrite LAST by discriminate. rewrite A1. repeat split; try congruence. intros _. apply A3. discriminate. }
      destruct (z <? bs); apply G.
    + exists (splice out b (L a)). eauto.
Qed.

Lemma search_srch : forall k st, exists o',
  match max_compressed_size e st k with
  | (RErr e1, st1) => search v e k transform estimate same dflt order (Mem inp aux out) st = Ok (RErr (SizeEstimationError e1), Mem inp aux o', st1) /\ o' = out
  | (ROk n, st1) =>
      if negb (n =? 0) && negb (alloc_ok v n)
      then search v e k transform estimate same dflt order (Mem inp aux out) st = Ok (RErr AllocateError, Mem inp aux o', st1) /\ o' = out
      else match srch n order dflt (usize_max v) st1 with
           | (ROk s, st2) => search v e k transform estimate same dflt order (Mem inp aux out) st = Ok (ROk s, Mem inp aux o', st2) /\ o' = splice out b (L s)
           | (RErr e1, st2) => search v e k transform estimate same dflt order (Mem inp aux out) st = Ok (RErr (SizeEstimationError e1), Mem inp aux o', st2) /\ exists s, o' = splice out b (L s)
           end
  end.
Proof.
  intros k st. unfold search. destruct (max_compressed_size e st k) as [[n|e1] st1]; [|eexists; split; reflexivity].
  destruct (negb (n =? 0) && negb (alloc_ok v n)); [eexists; split; reflexivity|].
  destruct (loop_srch n order dflt (usize_max v) dflt out st1 (fun s H => H) eq_refl (fun s => eq_refl)) as (o' & A & B & C).
  destruct (srch n order dflt (usize_max v) st1) as [[s|e1] st2].
  - destruct A as (A1 & _ & A3). rewrite A1. cbn [bind]. specialize (A3 Hne).
    destruct (same s (List.last order dflt)) eqn:E.
    + apply Hsame in E. exists o'. split; [reflexivity|]. rewrite A3, <- E. reflexivity.
    + rewrite HT by exact B. cbn [bind]. eexists. split; [reflexivity|]. rewrite C. reflexivity.
  - destruct A as (A & SS). rewrite A. cbn [bind]. exists o'. split; [reflexivity|exact SS].
Qed.
End Search.

(** ** Deterministic estimators: the best candidate *)
Section Pure.
Context {Er S : Type}.
Variables (mx : Z -> result Z Er) (size : list byte -> Z -> result Z Er) (shown : S -> list (list byte)).
Let tot (n : Z) (s : S) := total_size (fun d => size d n) (shown s).

Lemma est_all_pure : forall ds n acc, est_all (pure mx size) ds n acc tt =
  (match total_size (fun d => size d n) ds with ROk z => ROk (acc + z) | RErr e => RErr e end, tt).
Proof.
  induction ds as [|d ds IH]; intros n acc; cbn [est_all total_size].
  - rewrite Z.add_0_r. reflexivity.
  - unfold pure at 1. cbn [estimate_compressed_size]. destruct (size d n) as [z|e1]; [|reflexivity].
    rewrite IH. destruct (total_size _ ds); [|reflexivity]. rewrite Z.add_assoc. reflexivity.
Qed.

Lemma srch_pure : forall n order best bs s st', srch (pure mx size) shown n order best bs tt = (ROk s, st') ->
  exists f : S -> Z, (forall s', In s' order -> tot n s' = ROk (f s')) /\
    ((s = best /\ forall s', In s' order -> bs <= f s') \/
     (f s < bs /\ (forall s', In s' order -> f s <= f s') /\
      exists pre post, order = pre ++ s :: post /\ forall s', In s' pre -> f s < f s')).
Proof.
  intros n order. set (f := fun s' => match tot n s' with ROk z => z | RErr _ => 0 end).
  assert (F : forall s' z, tot n s' = ROk z -> f s' = z) by (intros s' z H; unfold f; rewrite H; reflexivity).
  induction order as [|a r IH]; intros best bs s st' H; cbn [srch] in H.
  - injection H as <- _. exists f. split; [intros s' []|]. left. split; [reflexivity|intros s' []].
  - rewrite est_all_pure in H. fold (tot n a) in H. destruct (tot n a) as [z|e1] eqn:Ea; [|discriminate]. rewrite Z.add_0_l in H.
    pose proof (F a z Ea) as Fa.
    destruct (z <? bs) eqn:Ez.
    + apply IH in H. destruct H as (g & G1 & G2).
      assert (GF : forall s', In s' r -> g s' = f s') by (intros s' H'; symmetry; apply F; apply G1; exact H').
      exists f. split.
      { intros s' [<-|H']; [congruence|]. rewrite <- (GF s') by exact H'. apply G1. exact H'. }
      right. destruct G2 as [[-> G2]|(G2 & G3 & pre & post & E & G4)].
      * split; [lia|]. split.
        { intros s' [<-|H']; [lia|]. rewrite <- (GF s') by exact H'. specialize (G2 s' H'). lia. }
        exists [], r. split; [reflexivity|intros s' []].
      * assert (Is : In s r) by (rewrite E; apply in_or_app; right; left; reflexivity).
        rewrite GF in * by exact Is. split; [lia|]. split.
        { intros s' [<-|H']; [lia|]. rewrite <- (GF s') by exact H'. apply G3. exact H'. }
        exists (a :: pre), post. split; [rewrite E; reflexivity|].
        intros s' [<-|H']; [lia|]. rewrite <- (GF s') by (rewrite E; apply in_or_app; left; exact H'). apply G4. exact H'.
    + apply IH in H. destruct H as (g & G1 & G2).
      assert (GF : forall s', In s' r -> g s' = f s') by (intros s' H'; symmetry; apply F; apply G1; exact H').
      exists f. split.
      { intros s' [<-|H']; [congruence|]. rewrite <- (GF s') by exact H'. apply G1. exact H'. }
      destruct G2 as [[-> G2]|(G2 & G3 & pre & post & E & G4)].
      * left. split; [reflexivity|]. intros s' [<-|H']; [lia|]. rewrite <- (GF s') by exact H'. apply G2. exact H'.
      * right. assert (Is : In s r) by (rewrite E; apply in_or_app; right; left; reflexivity).
        rewrite GF in * by exact Is. split; [lia|]. split.
        { intros s' [<-|H']; [lia|]. rewrite <- (GF s') by exact H'. apply G3. exact H'. }
        exists (a :: pre), post. split; [rewrite E; reflexivity|].
        intros s' [<-|H']; [lia|]. rewrite <- (GF s') by (rewrite E; apply in_or_app; left; exact H'). apply G4. exact H'.
Qed.

(** starting from the default with the largest possible size *)
Lemma srch_best : forall n order dflt umax s st', In dflt order ->
  (forall s' z, In s' order -> tot n s' = ROk z -> z <= umax) ->
  srch (pure mx size) shown n order dflt umax tt = (ROk s, st') ->
  exists z, tot n s = ROk z /\ (forall s', In s' order -> exists z', tot n s' = ROk z' /\ z <= z') /\
    (z < umax -> exists pre post, order = pre ++ s :: post /\ forall s', In s' pre -> exists z', tot n s' = ROk z' /\ z < z').
Proof.
  intros n order dflt umax s st' Hd Hu H. apply srch_pure in H. destruct H as (f & F & [[-> G]|(G1 & G2 & pre & post & E & G3)]).
  - exists (f dflt). split; [apply F; exact Hd|]. split.
    + intros s' H'. exists (f s'). split; [apply F; exact H'|]. specialize (G s' H'). pose proof (Hu dflt _ Hd (F dflt Hd)). lia.
    + intros Q. specialize (G dflt Hd). lia.
  - assert (Is : In s order) by (rewrite E; apply in_or_app; right; left; reflexivity).
    exists (f s). split; [apply F; exact Is|]. split.
    + intros s' H'. exists (f s'). split; [apply F; exact H'|apply G2; exact H'].
    + intros _. exists pre, post. split; [exact E|]. intros s' H'. exists (f s').
      split; [apply F; rewrite E; apply in_or_app; left; exact H'|apply G3; exact H'].
Qed.
End Pure.

(** ** What a logging estimator has seen *)
Section Log.
Context {St Er S : Type}.
Variables (e : estimator St Er) (shown : S -> list (list byte)) (n : Z).

(** [calls]: the calls made, on sections [ds] in order, all answered but perhaps the last *)
Definition asked (ds : list (list byte)) (calls : list (call Er)) (err : option Er) : Prop :=
  exists k answers, calls = map (fun da => AskedSize (fst da) n (snd da)) (combine (firstn k ds) answers) /\
    List.length answers = List.length (firstn k ds) /\
    match err with
    | None => firstn k ds = ds /\ Forall (fun a => exists z, a = ROk z) answers
    | Some e1 => exists zs, answers = zs ++ [RErr e1] /\ Forall (fun a => exists z, a = ROk z) zs
    end.

Lemma asked_nil : asked [] [] None.
Proof. exists O, []. repeat split. constructor. Qed.

Lemma asked_stop : forall d ds e1, asked (d :: ds) [AskedSize d n (RErr e1)] (Some e1).
Proof. intros. exists 1%nat, [RErr e1]. repeat split. exists []. split; [reflexivity|constructor]. Qed.

Lemma asked_cons : forall d ds z calls err, asked ds calls err -> asked (d :: ds) (AskedSize d n (ROk z) :: calls) err.
Proof.
  intros d ds z calls err (k & an & E & HL & H). exists (1 + k)%nat, (ROk z :: an). cbn [firstn plus combine map fst snd List.length].
  split; [rewrite E; reflexivity|]. split; [rewrite HL; reflexivity|].
  destruct err as [e1|].
  - destruct H as (zs & -> & F). exists (ROk z :: zs). split; [reflexivity|]. constructor; [eexists; reflexivity|exact F].
  - destruct H as (H & F). split; [rewrite H; reflexivity|]. constructor; [eexists; reflexivity|exact F].
Qed.

Lemma asked_app : forall ds ds' calls calls' err, asked ds calls None -> asked ds' calls' err -> asked (ds ++ ds') (calls ++ calls') err.
Proof.
  intros ds ds' calls calls' err (k & an & E & HL & H & F) (k' & an' & E' & HL' & H').
  exists (List.length ds + k')%nat, (an ++ an').
  assert (FN : firstn (List.length ds + k') (ds ++ ds') = ds ++ firstn k' ds').
  { rewrite firstn_app, firstn_all2 by lia. f_equal. f_equal. lia. }
  rewrite H in *. rewrite FN. split; [|split].
  - rewrite E, E', <- map_app. f_equal. clear -HL. revert an HL. induction ds as [|d ds IH]; intros [|a an] HL; try discriminate; [reflexivity|].
    cbn [combine app]. f_equal. apply IH. injection HL. auto.
  - rewrite !app_length. lia.
  - destruct err as [e1|].
    + destruct H' as (zs & -> & F'). exists (an ++ zs). split; [rewrite app_assoc; reflexivity|]. apply Forall_app. auto.
    + destruct H' as (H' & F'). split; [rewrite H'; reflexivity|]. apply Forall_app. auto.
Qed.

Lemma asked_err_app : forall ds ds' calls e1, asked ds calls (Some e1) -> asked (ds ++ ds') calls (Some e1).
Proof.
  intros ds ds' calls e1 (k & an & E & HL & H). exists (Nat.min k (List.length ds)), an.
  assert (FN : firstn (Nat.min k (List.length ds)) (ds ++ ds') = firstn k ds).
  { rewrite firstn_app. replace (Nat.min k (List.length ds) - List.length ds)%nat with O by lia. cbn [firstn]. rewrite app_nil_r.
    rewrite <- firstn_firstn. rewrite firstn_all. reflexivity. }
  rewrite FN. auto.
Qed.

Lemma est_all_log : forall ds acc st lg r st' lg',
  est_all (logging e) ds n acc (st, lg) = (r, (st', lg')) ->
  exists calls, lg' = lg ++ calls /\ asked ds calls (match r with ROk _ => None | RErr e1 => Some e1 end).
Proof.
  induction ds as [|d ds IH]; intros acc st lg r st' lg' H; cbn [est_all] in H.
  - injection H as <- <- <-. exists []. rewrite app_nil_r. split; [reflexivity|apply asked_nil].
  - unfold logging at 1 in H. cbn [estimate_compressed_size fst snd] in H.
    destruct (estimate_compressed_size e st d n) as [[z|e1] st1].
    + apply IH in H. destruct H as (calls & -> & A). exists (AskedSize d n (ROk z) :: calls).
      rewrite <- app_assoc. split; [reflexivity|]. apply asked_cons. exact A.
    + injection H as <- <- <-. eexists. split; [reflexivity|]. apply asked_stop.
Qed.

Lemma srch_log : forall order best bs st lg r st' lg',
  srch (logging e) shown n order best bs (st, lg) = (r, (st', lg')) ->
  exists calls, lg' = lg ++ calls /\ asked (flat_map shown order) calls (match r with ROk _ => None | RErr e1 => Some e1 end).
Proof.
  induction order as [|a o IH]; intros best bs st lg r st' lg' H; cbn [srch flat_map] in *.
  - injection H as <- <- <-. exists []. rewrite app_nil_r. split; [reflexivity|apply asked_nil].
  - destruct (est_all (logging e) (shown a) n 0 (st, lg)) as [[z|e1] [st1 lg1]] eqn:E; apply est_all_log in E; destruct E as (c1 & -> & A1).
    + assert (G : exists calls, lg' = (lg ++ c1) ++ calls /\ asked (flat_map shown o) calls (match r with ROk _ => None | RErr e1 => Some e1 end)).
      { destruct (z <? bs); apply IH in H; exact H. }
      destruct G as (c2 & -> & A2). exists (c1 ++ c2). rewrite app_assoc. split; [reflexivity|]. apply asked_app; assumption.
    + injection H as <- <- <-. exists c1. split; [reflexivity|]. apply asked_err_app. exact A1.
Qed.
End Log.
