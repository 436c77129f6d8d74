(** The paths on the command line: what making them does to a disk. *)
From Verif Require Import Base.Bytes Base.Res Model.Transform Model.Handlers Model.Cli Model.Commands Spec.Cli Spec.Commands Proofs.CliFacts.
From Coq Require Import String.
Open Scope list_scope.

Lemma disk_rec_ind (P : disk -> Prop) : (forall x, P (File x)) ->
  (forall es, (forall name d, In (name, d) es -> P d) -> P (Dir es)) -> forall d, P d.
Proof.
  intros F D. fix IH 1. intros [x|es]; [apply F|]. apply D. induction es as [|[n e] es IHes]; intros name d Hin; [destruct Hin|].
  destruct Hin as [E | Hin]; [injection E as _ <-; apply IH | exact (IHes _ _ Hin)].
Qed.

Lemma entry_in es c d : entry es c = Some d -> In (c, d) es.
Proof.
  induction es as [|[n e] es IH]; [discriminate|]. cbn. destruct (String.eqb_spec n c) as [-> | N].
  - intros [= ->]. left. reflexivity.
  - intros H. right. exact (IH H).
Qed.
Lemma in_entry es c d : NoDup (map fst es) -> In (c, d) es -> entry es c = Some d.
Proof.
  induction es as [|[n e] es IH]; [intros _ []|]. cbn. intros N. inversion N as [|? ? N1 N2]; subst. intros [E | Hin].
  - injection E as -> ->. rewrite String.eqb_refl. reflexivity.
  - destruct (String.eqb_spec n c) as [-> | ?]; [|exact (IH N2 Hin)]. exfalso. apply N1. apply in_map_iff. exists (c, d). split; [reflexivity | exact Hin].
Qed.
Lemma entry_replace es c d1 d c1 : entry es c = Some d -> entry (replace es c d1) c1 = if String.eqb c c1 then Some d1 else entry es c1.
Proof.
  induction es as [|[n e] es IH]; [discriminate|]. cbn. destruct (String.eqb_spec n c) as [-> | N]; intros H; cbn.
  - destruct (String.eqb c c1); reflexivity.
  - rewrite (IH H). destruct (String.eqb_spec n c1) as [-> | ?]; [|reflexivity]. destruct (String.eqb_spec c c1) as [-> | ?]; [contradiction | reflexivity].
Qed.
Lemma entry_app es c d c1 : entry es c = None -> entry (es ++ [(c, d)]) c1 = if String.eqb c c1 then Some d else entry es c1.
Proof.
  induction es as [|[n e] es IH]; cbn; [intros _; reflexivity|]. destruct (String.eqb_spec n c) as [-> | N]; [discriminate|]. intros H.
  rewrite (IH H). destruct (String.eqb_spec n c1) as [-> | ?]; [|reflexivity]. destruct (String.eqb_spec c c1) as [-> | ?]; [contradiction | reflexivity].
Qed.
Lemma find_app : forall q d r, find d (q ++ r) = match find d q with Some d1 => find d1 r | None => None end.
Proof. induction q as [|c q IH]; intros d r; [reflexivity|]. cbn. destruct d as [x|es]; [reflexivity|]. destruct (entry es c); [apply IH | reflexivity]. Qed.

(** One directory. *)
Lemma mkdir_find : forall p ok d d1, mkdir ok d p = ROk d1 ->
  ok = true /\ find d p = None /\ find d1 p = Some (Dir []) /\
  forall q, match find d q with
            | Some (File x) => find d1 q = Some (File x)
            | Some (Dir _) => exists es1, find d1 q = Some (Dir es1)
            | None => find d1 q <> None -> q = p
            end.
Proof.
  induction p as [|c p IH]; intros ok d d1; [discriminate|]. cbn. destruct d as [x|es]; [discriminate|].
  destruct (entry es c) as [e|] eqn:E.
  - destruct (mkdir ok e p) as [e1|] eqn:M; [|discriminate]. intros [= <-]. destruct (IH _ _ _ M) as (O & N & F & A).
    split; [exact O|]. split; [exact N|]. split; [cbn; rewrite (entry_replace _ _ _ _ c E), String.eqb_refl; exact F|].
    intros [|k q]; [cbn; eexists; reflexivity|]. cbn. rewrite (entry_replace _ _ _ _ k E). destruct (String.eqb_spec c k) as [<- | ?].
    + rewrite E. specialize (A q). destruct (find e q) as [[|]|]; [exact A | exact A|]. intros H. f_equal. exact (A H).
    + destruct (entry es k) as [e2|]; [|intros H; exfalso; exact (H eq_refl)]. destruct (find e2 q) as [[|]|]; [reflexivity | eexists; reflexivity|].
      intros H. exfalso. exact (H eq_refl).
  - destruct p as [|c2 p]; [|discriminate]. destruct ok; [|discriminate]. intros [= <-].
    split; [reflexivity|]. split; [reflexivity|]. split; [cbn; rewrite (entry_app _ _ _ _ E), String.eqb_refl; reflexivity|].
    intros [|k q]; [cbn; eexists; reflexivity|]. cbn. rewrite (entry_app _ _ _ k E). destruct (String.eqb_spec c k) as [<- | ?].
    + rewrite E. destruct q as [|k2 q]; [reflexivity|]. cbn. intros H. exfalso. exact (H eq_refl).
    + destruct (entry es k) as [e2|]; [|intros H; exfalso; exact (H eq_refl)]. destruct (find e2 q) as [[|]|]; [reflexivity | eexists; reflexivity|].
      intros H. exfalso. exact (H eq_refl).
Qed.
Lemma mkdir_dir ok d p d1 : mkdir ok d p = ROk d1 -> exists es es1, d = Dir es /\ d1 = Dir es1.
Proof.
  destruct p as [|c p]; [discriminate|]. cbn. destruct d as [x|es]; [discriminate|]. destruct (entry es c).
  - destruct (mkdir ok d p); [|discriminate]. intros [= <-]. eauto.
  - destruct p; [|discriminate]. destruct ok; [|discriminate]. intros [= <-]. eauto.
Qed.
Lemma mkdir_contents : forall p ok d d1 a, mkdir ok d p = ROk d1 -> contents a d1 = contents a d.
Proof.
  induction p as [|c p IH]; intros ok d d1 a; [discriminate|]. cbn. destruct d as [x|es]; [discriminate|].
  destruct (entry es c) as [e|] eqn:E.
  - destruct (mkdir ok e p) as [e1|] eqn:M; [|discriminate]. intros [= <-]. cbn. induction es as [|[n k] es IHes]; [reflexivity|].
    cbn in E |- *. destruct (String.eqb n c); cbn; [injection E as ->; rewrite (IH _ _ _ (a ++ [n]) M); reflexivity | rewrite (IHes E); reflexivity].
  - destruct p; [|discriminate]. destruct ok; [|discriminate]. intros [= <-]. cbn. rewrite flat_map_app. cbn. rewrite !app_nil_r. reflexivity.
Qed.
Lemma found_entry a n (d d1 : disk) : (forall x, d <> File x) -> (forall x, d1 <> File x) ->
  find_all_files (a ++ [n]) (tree_of d1) = find_all_files (a ++ [n]) (tree_of d) ->
  (match tree_of d1 with Leaf => [a ++ [n]] | _ => find_all_files (a ++ [n]) (tree_of d1) end) =
  (match tree_of d with Leaf => [a ++ [n]] | _ => find_all_files (a ++ [n]) (tree_of d) end).
Proof. destruct d; [intros H; destruct (H _ eq_refl)|]. destruct d1; [intros _ H; destruct (H _ eq_refl)|]. intros _ _ H. exact H. Qed.
Lemma mkdir_found : forall p ok d d1 a, mkdir ok d p = ROk d1 -> find_all_files a (tree_of d1) = find_all_files a (tree_of d).
Proof.
  induction p as [|c p IH]; intros ok d d1 a; [discriminate|]. cbn. destruct d as [x|es]; [discriminate|].
  destruct (entry es c) as [e|] eqn:E.
  - destruct (mkdir ok e p) as [e1|] eqn:M; [|discriminate]. intros [= <-]. destruct (mkdir_dir _ _ _ _ M) as (es2 & es3 & D2 & D3).
    cbn. induction es as [|[n k] es IHes]; [reflexivity|].
    cbn in E |- *. destruct (String.eqb n c); cbn [map flat_map fst snd].
    + injection E as ->. f_equal. apply found_entry; [intros y ->; discriminate | intros y ->; discriminate | exact (IH _ _ _ _ M)].
    + f_equal. exact (IHes E).
  - destruct p; [|discriminate]. destruct ok; [|discriminate]. intros [= <-]. cbn. rewrite map_app, flat_map_app. cbn. rewrite !app_nil_r. reflexivity.
Qed.
(** A directory that was there is the same or has had a directory made in it. *)
Lemma mkdir_at : forall p ok d d1 q e, mkdir ok d p = ROk d1 -> find d q = Some e ->
  exists e1, find d1 q = Some e1 /\ (e1 = e \/ exists p1, mkdir ok e p1 = ROk e1).
Proof.
  induction p as [|c p IH]; intros ok d d1 q e M F; [discriminate|]. destruct q as [|k q]; [injection F as <-; exists d1; split; [reflexivity | right; eauto]|].
  cbn in M, F. destruct d as [x|es]; [discriminate|]. destruct (entry es c) as [f|] eqn:E.
  - destruct (mkdir ok f p) as [f1|] eqn:M1; [|discriminate]. injection M as <-. cbn. rewrite (entry_replace _ _ _ _ k E).
    destruct (String.eqb_spec c k) as [<- | ?]; [rewrite E in F; exact (IH _ _ _ _ _ M1 F) | exists e; split; [exact F | left; reflexivity]].
  - destruct p; [|discriminate]. destruct ok; [|discriminate]. injection M as <-. cbn. rewrite (entry_app _ _ _ k E).
    destruct (String.eqb_spec c k) as [<- | ?]; [rewrite E in F; discriminate | exists e; split; [exact F | left; reflexivity]].
Qed.
Lemma mkdir_fails : forall p ok d e, mkdir ok d p = RErr e ->
  match e with
  | NotFound => ~ blocked d p /\ find d p = None /\ exists q c, p = q ++ [c] /\ find d q = None
  | NotADirectory => blocked d p
  | AlreadyExists => find d p <> None
  | Refused => ok = false /\ find d p = None
  end.
Proof.
  induction p as [|c p IH]; intros ok d e; [intros [= <-]; discriminate|]. cbn. destruct d as [x|es]; [intros [= <-]; exists [], c, p, x; split; reflexivity|].
  destruct (entry es c) as [f|] eqn:E.
  - destruct (mkdir ok f p) as [|e1] eqn:M; [discriminate|]. intros [= <-]. specialize (IH _ _ _ M). destruct e1.
    + destruct IH as (B & N & q & c1 & -> & Q). split; [|split; [exact N|]].
      * intros (q1 & c2 & r & y & P & Y). destruct q1 as [|k q1]; [discriminate|]. injection P as <- P. cbn in Y. rewrite E in Y.
        apply B. exists q1, c2, r, y. split; [exact P | exact Y].
      * exists (c :: q), c1. split; [reflexivity|]. cbn. rewrite E. exact Q.
    + destruct IH as (q & c1 & r & y & -> & Y). exists (c :: q), c1, r, y. split; [reflexivity|]. cbn. rewrite E. exact Y.
    + exact IH.
    + exact IH.
  - destruct p as [|c2 p].
    + destruct ok; [discriminate|]. intros [= <-]. split; reflexivity.
    + intros [= <-]. split; [|split; [reflexivity|]].
      * intros (q1 & c3 & r & y & P & Y). destruct q1 as [|k q1]; [discriminate|]. injection P as <- P. cbn in Y. rewrite E in Y. discriminate.
      * destruct (@exists_last _ (c2 :: p) ltac:(discriminate)) as (q & c1 & L). exists (c :: q), c1. rewrite L. split; [reflexivity|]. cbn. rewrite E. reflexivity.
Qed.

(** Growing. *)
Definition grown (values : list components) (d d1 : disk) : Prop :=
  contents [] d1 = contents [] d /\
  (forall q, match find d q with
             | Some (File x) => find d1 q = Some (File x)
             | Some (Dir es) => exists es1, find d1 q = Some (Dir es1)
             | None => find d1 q = None \/ (exists es1, find d1 q = Some (Dir es1)) /\ exists v, In v values /\ leads_to q v
             end) /\
  (forall q e, find d q = Some e -> exists e1, find d1 q = Some e1 /\ forall a, find_all_files a (tree_of e1) = find_all_files a (tree_of e)).
Lemma grown_same values d : grown values d d.
Proof.
  split; [reflexivity|]. split.
  - intros q. destruct (find d q) as [[|]|]; [reflexivity | eexists; reflexivity | left; reflexivity].
  - intros q e F. exists e. split; [exact F | reflexivity].
Qed.
Lemma grown_trans values d d1 d2 : grown values d d1 -> grown values d1 d2 -> grown values d d2.
Proof.
  intros (C1 & F1 & T1) (C2 & F2 & T2). split; [rewrite C2; exact C1|]. split.
  - intros q. specialize (F1 q). specialize (F2 q). destruct (find d q) as [[|]|].
    + rewrite F1 in F2. exact F2.
    + destruct F1 as (es1 & F1). rewrite F1 in F2. exact F2.
    + destruct F1 as [F1 | [(es1 & F1) V]]; rewrite F1 in F2; [exact F2|]. right. split; [exact F2 | exact V].
  - intros q e F. destruct (T1 _ _ F) as (e1 & G1 & A1). destruct (T2 _ _ G1) as (e2 & G2 & A2). exists e2. split; [exact G2|]. intros a. rewrite A2. apply A1.
Qed.
Lemma grown_more values values1 d d1 : (forall v, In v values -> In v values1) -> grown values d d1 -> grown values1 d d1.
Proof.
  intros S (C & F & T). split; [exact C|]. split; [|exact T]. intros q. specialize (F q). destruct (find d q) as [[|]|]; [exact F | exact F|].
  destruct F as [F | [F (v & V & L)]]; [left; exact F|]. right. split; [exact F|]. exists v. split; [exact (S _ V) | exact L].
Qed.
Lemma leads_refl p : leads_to p p.
Proof. exists []. symmetry. apply app_nil_r. Qed.
Lemma leads_trans p q r : leads_to p q -> leads_to q r -> leads_to p r.
Proof. intros (a & ->) (b & ->). exists (a ++ b). rewrite app_assoc. reflexivity. Qed.
Lemma grown_further p p1 d d1 : leads_to p p1 -> grown [p] d d1 -> grown [p1] d d1.
Proof.
  intros L (C & F & T). split; [exact C|]. split; [|exact T]. intros q. specialize (F q). destruct (find d q) as [[|]|]; [exact F | exact F|].
  destruct F as [F | [F (v & V & Lv)]]; [left; exact F|]. right. split; [exact F|]. exists p1. split; [left; reflexivity|].
  destruct V as [<- | []]. exact (leads_trans _ _ _ Lv L).
Qed.
Lemma mkdir_grown ok d p d1 : mkdir ok d p = ROk d1 -> grown [p] d d1.
Proof.
  intros M. destruct (mkdir_find _ _ _ _ M) as (O & N & P & A). split; [exact (mkdir_contents _ _ _ _ _ M)|]. split.
  - intros q. specialize (A q). destruct (find d q) as [[|]|] eqn:Q; [exact A | exact A|]. destruct (find d1 q) as [e|] eqn:Q1; [|left; reflexivity].
    right. pose proof (A ltac:(discriminate)) as ->. split; [rewrite P in Q1; injection Q1 as <-; eexists; reflexivity|]. exists p. split; [left; reflexivity | apply leads_refl].
  - intros q e F. destruct (mkdir_at _ _ _ _ _ _ M F) as (e1 & G & [-> | (p1 & M1)]); exists e1 || exists e.
    + split; [exact G | reflexivity].
    + split; [exact G|]. intros a. exact (mkdir_found _ _ _ _ a M1).
Qed.
Lemma grown_facts values d d1 : grown values d d1 -> only_new_directories values d d1.
Proof.
  intros (C & F & T). split; [unfold files_on; rewrite C; reflexivity|]. split; [|split].
  - intros p x. specialize (F p). destruct (find d p) as [[y|es]|].
    + rewrite F. split; intros H; exact H.
    + destruct F as (es1 & F). rewrite F. split; discriminate.
    + destruct F as [F | [(es1 & F) _]]; rewrite F; split; discriminate.
  - intros p es H. specialize (F p). rewrite H in F. exact F.
  - intros p N S. specialize (F p). rewrite N in F. destruct F as [F | [_ V]]; [contradiction | exact V].
Qed.

Lemma find_prefix d q r : find d (q ++ r) <> None -> find d q <> None.
Proof. rewrite find_app. destruct (find d q); [discriminate | intros H; exact H]. Qed.
Lemma blocked_missing d p : blocked d p -> find d p = None.
Proof. intros (q & c & r & x & -> & H). rewrite find_app, H. reflexivity. Qed.
Lemma is_dir_true d p : is_dir d p = true <-> exists es, find d p = Some (Dir es).
Proof. unfold is_dir. destruct (find d p) as [[|es]|]; split; try discriminate; try (intros (es1 & E); discriminate); [exists es; reflexivity | reflexivity]. Qed.
Lemma leads_snoc q p c : leads_to q (p ++ [c]) -> q = p ++ [c] \/ leads_to q p.
Proof.
  intros (r & E). destruct r as [|k r] using rev_ind; [left; rewrite app_nil_r in E; symmetry; exact E|]. right. rewrite app_assoc in E. apply app_inj_tail in E as [-> _].
  exists r. reflexivity.
Qed.
Definition hopeless may d p : Prop := blocked d p \/ (exists x, find d p = Some (File x)) \/ refused may d p.
Lemma create_spec may : forall rp d r d1, create_dir_all may d rp = (r, d1) ->
  grown [rev rp] d d1 /\ (r = ROk tt -> is_dir d1 (rev rp) = true) /\ ((exists e, r = RErr e) <-> hopeless may d (rev rp)).
Proof.
  assert (Present : forall d p (e : mkdir_error), find d p <> None -> forall r d1, (if is_dir d p then (ROk tt, d) else (RErr e, d)) = (r, d1) ->
     grown [p] d d1 /\ (r = ROk tt -> is_dir d1 p = true) /\ ((exists e, r = RErr e) <-> hopeless may d p)).
  { intros d p e N r d1. destruct (is_dir d p) eqn:D; intros [= <- <-]; (split; [apply grown_same|]).
    - split; [intros _; exact D|]. split; [intros (? & ?); discriminate|]. apply is_dir_true in D as (es & D).
      intros [B | [(x & F) | (q & (s & ->) & Q & _)]].
      + rewrite (blocked_missing _ _ B) in D. discriminate.
      + rewrite F in D. discriminate.
      + rewrite find_app, Q in D. discriminate.
    - split; [discriminate|]. split; [|intros _; eexists; reflexivity]. intros _. right. left. unfold is_dir in D. destruct (find d p) as [[x|es]|]; [exists x; reflexivity | discriminate | contradiction]. }
  induction rp as [|c up IH]; intros d r d1 H.
  - apply (Present d [] AlreadyExists); [discriminate | exact H].
  - cbn [create_dir_all] in H. set (p := rev (c :: up)) in *. assert (Ep : p = rev up ++ [c]) by reflexivity. clearbody p.
    destruct (mkdir (may p) d p) as [d2|e] eqn:M.
    + injection H as <- <-. destruct (mkdir_find _ _ _ _ M) as (O & N & F & A). split; [exact (mkdir_grown _ _ _ _ M)|]. split; [intros _; apply is_dir_true; eauto|].
      split; [intros (? & ?); discriminate|]. intros Hp. exfalso.
      assert (Up : forall q, leads_to q p -> q = p \/ exists es, find d q = Some (Dir es)).
      { intros q L. rewrite Ep in L. destruct (leads_snoc _ _ _ L) as [-> | (s & Es)]; [left; symmetry; exact Ep|]. right.
        assert (Q1 : exists es, find d2 q = Some (Dir es)).
        { rewrite Ep, Es, <- app_assoc in F. rewrite find_app in F. destruct (find d2 q) as [[|es]|]; [destruct s; discriminate | eexists; reflexivity | discriminate]. }
        specialize (A q). destruct (find d q) as [[x|es]|]; [rewrite A in Q1; destruct Q1 as (? & ?); discriminate | eexists; reflexivity|].
        destruct Q1 as (es & Q1). rewrite Q1 in A. specialize (A ltac:(discriminate)). exfalso. rewrite A in Es. rewrite Ep in Es. apply (f_equal (@List.length _)) in Es.
        rewrite !app_length in Es. cbn in Es. lia. }
      destruct Hp as [(q & k & s & x & P & X) | [(x & X) | (q & L & Q & Mq)]].
      * destruct (Up q) as [-> | (es & E2)]; [exists (k :: s); exact P | rewrite N in X; discriminate | rewrite E2 in X; discriminate].
      * rewrite N in X. discriminate.
      * destruct (Up q L) as [-> | (es & E2)]; [rewrite O in Mq; discriminate | rewrite E2 in Q; discriminate].
    + pose proof (mkdir_fails _ _ _ _ M) as X. destruct e.
      * destruct X as (B & N & _). destruct (create_dir_all may d up) as [[[]|e] d2] eqn:U; specialize (IH _ _ _ U) as (G & K & I).
        -- specialize (K eq_refl). assert (L : leads_to (rev up) p) by (exists [c]; exact Ep).
           assert (N2 : find d2 p = None).
           { destruct G as (_ & G & _). specialize (G p). rewrite N in G. destruct G as [G | [_ (v & [<- | []] & (s & Es))]]; [exact G|]. exfalso. rewrite Ep in Es.
             apply (f_equal (@List.length _)) in Es. rewrite !app_length in Es. cbn in Es. lia. }
           assert (Not : ~ (exists e : mkdir_error, @ROk unit mkdir_error tt = RErr e)) by (intros (? & ?); discriminate).
           destruct (mkdir (may p) d2 p) as [d3|e2] eqn:M2.
           ++ injection H as <- <-. destruct (mkdir_find _ _ _ _ M2) as (O & _ & F & _). split; [exact (grown_trans _ _ _ _ (grown_further _ _ _ _ L G) (mkdir_grown _ _ _ _ M2))|].
              split; [intros _; apply is_dir_true; eauto|]. split; [intros (? & ?); discriminate|]. intros [Hb | [(x & Hx) | (q & Lq & Q & Mq)]]; exfalso.
              ** exact (B Hb).
              ** rewrite N in Hx. discriminate.
              ** rewrite Ep in Lq. destruct (leads_snoc _ _ _ Lq) as [Eq | Lu]; [rewrite Eq, <- Ep, O in Mq; discriminate|]. apply Not. apply I. right. right. exists q. split; [exact Lu | split; assumption].
           ++ assert (Z : is_dir d2 p = false) by (unfold is_dir; rewrite N2; reflexivity). rewrite Z in H. injection H as <- <-.
              split; [exact (grown_further _ _ _ _ L G)|]. split; [discriminate|]. split; [|intros _; eexists; reflexivity]. intros _.
              apply is_dir_true in K as (es & K). pose proof (mkdir_fails _ _ _ _ M2) as Y. destruct e2.
              ** destruct Y as (_ & _ & q & k & Pq & Q). rewrite Ep in Pq. apply app_inj_tail in Pq as [<- _]. rewrite K in Q. discriminate.
              ** destruct Y as (q & k & s & x & P & X). exfalso. assert (Lq : leads_to q p) by (exists (k :: s); exact P). rewrite Ep in Lq.
                 destruct (leads_snoc _ _ _ Lq) as [Eq | (s2 & Es)]; [rewrite Eq, <- Ep, N2 in X; discriminate|].
                 rewrite Es, find_app, X in K. destruct s2; discriminate.
              ** contradiction.
              ** destruct Y as (Y & _). right. right. exists p. split; [apply leads_refl|]. split; [exact N | exact Y].
        -- injection H as <- <-. split; [apply (grown_further (rev up)); [exists [c]; exact Ep | exact G]|]. split; [discriminate|]. split; [|intros _; eexists; reflexivity]. intros _.
           destruct (proj1 I (ex_intro _ e eq_refl)) as [(q & k & s & x & P & X) | [(x & X) | (q & Lq & Q)]].
           ++ left. exists q, k, (s ++ [c]), x. split; [rewrite Ep, P, <- app_assoc; reflexivity | exact X].
           ++ left. exists (rev up), c, [], x. split; [exact Ep | exact X].
           ++ right. right. exists q. split; [apply (leads_trans _ (rev up)); [exact Lq | exists [c]; exact Ep] | exact Q].
      * assert (Z : is_dir d p = false) by (unfold is_dir; rewrite (blocked_missing _ _ X); reflexivity). rewrite Z in H. injection H as <- <-.
        split; [apply grown_same|]. split; [discriminate|]. split; [|intros _; eexists; reflexivity]. intros _. left. exact X.
      * exact (Present _ _ _ X _ _ H).
      * destruct X as (X & N). assert (Z : is_dir d p = false) by (unfold is_dir; rewrite N; reflexivity). rewrite Z in H. injection H as <- <-.
        split; [apply grown_same|]. split; [discriminate|]. split; [|intros _; eexists; reflexivity]. intros _. right. right. exists p. split; [apply leads_refl|]. split; assumption.
Qed.

Lemma path_spec may d p r d1 : canonicalize_cli_path may d p = (r, d1) ->
  grown [p] d d1 /\ (forall p1, r = ROk p1 -> p1 = p /\ find d1 p <> None /\ (find d p = None -> is_dir d1 p = true)) /\
  ((exists e, r = RErr e) <-> blocked d p \/ refused may d p).
Proof.
  unfold canonicalize_cli_path. unfold exists_at at 1. destruct (find d p) as [e|] eqn:F.
  - intros [= <- <-]. split; [apply grown_same|]. unfold exists_at. rewrite F. split.
    + intros p1 [= <-]. split; [reflexivity|]. split; discriminate.
    + split; [intros (? & ?); discriminate|]. intros [B | (q & (s & ->) & Q & _)]; [rewrite (blocked_missing _ _ B) in F; discriminate | rewrite find_app, Q in F; discriminate].
  - destruct (create_dir_all may d (rev p)) as [[[]|e] d2] eqn:C; pose proof (create_spec _ _ _ _ _ C) as (G & K & I); rewrite rev_involutive in G, K, I.
    + specialize (K eq_refl). pose proof K as K1. apply is_dir_true in K1 as (es & K1). unfold exists_at. rewrite K1. intros [= <- <-]. split; [exact G|]. split.
      * intros p1 [= <-]. split; [reflexivity|]. split; [rewrite K1; discriminate | intros _; exact K].
      * split; [intros (? & ?); discriminate|]. intros H. exfalso. assert (X : hopeless may d p) by (destruct H; [left; assumption | right; right; assumption]).
        apply I in X as (? & ?). discriminate.
    + intros [= <- <-]. split; [exact G|]. split; [discriminate|]. split; [|intros _; eexists; reflexivity]. intros _.
      destruct (proj1 I (ex_intro _ e eq_refl)) as [B | [(x & X) | R]]; [left; exact B | rewrite F in X; discriminate | right; exact R].
Qed.
Lemma path_again may d p r d1 : canonicalize_cli_path may d p = (ROk r, d1) -> canonicalize_cli_path may d1 p = (ROk p, d1).
Proof.
  intros H. destruct (path_spec _ _ _ _ _ H) as (_ & K & _). destruct (K _ eq_refl) as (_ & F & _). unfold canonicalize_cli_path, exists_at.
  destruct (find d1 p) eqn:E; [rewrite E; reflexivity | contradiction].
Qed.
Lemma paths_grown may : forall values d ok d1, parse_paths may d values = (ok, d1) -> grown values d d1.
Proof.
  induction values as [|v values IH]; intros d ok d1; cbn; [intros [= _ <-]; apply grown_same|].
  destruct (canonicalize_cli_path may d v) as [[r|e] d2] eqn:C; pose proof (path_spec _ _ _ _ _ C) as (G & _).
  - intros H. apply (grown_trans _ _ d2).
    + apply (grown_more [v]); [intros w [<- | []]; left; reflexivity | exact G].
    + apply (grown_more values); [intros w W; right; exact W | exact (IH _ _ _ H)].
  - intros [= _ <-]. apply (grown_more [v]); [intros w [<- | []]; left; reflexivity | exact G].
Qed.
Lemma paths_there may : forall values d d1, parse_paths may d values = (true, d1) ->
  forall v, In v values -> find d1 v <> None /\ (find d v = None -> is_dir d1 v = true).
Proof.
  induction values as [|w values IH]; intros d d1 H v Hin; [destruct Hin|]. cbn in H.
  destruct (canonicalize_cli_path may d w) as [[r|e] d2] eqn:C; [|discriminate]. pose proof (path_spec _ _ _ _ _ C) as (G & K & _).
  destruct (K _ eq_refl) as (_ & K1 & K2). pose proof (paths_grown _ _ _ _ _ H) as G2.
  assert (Two : forall q, (find d2 q <> None -> find d1 q <> None) /\ (is_dir d2 q = true -> is_dir d1 q = true)).
  { intros q. destruct G2 as (_ & G2 & _). specialize (G2 q). unfold is_dir. destruct (find d2 q) as [[x|es]|].
    - rewrite G2. split; [discriminate | intros E; exact E].
    - destruct G2 as (es1 & G2). rewrite G2. split; [discriminate | reflexivity].
    - split; [intros E; contradiction | discriminate]. }
  destruct Hin as [<- | Hin].
  - split; [apply Two; exact K1 | intros N; apply Two; exact (K2 N)].
  - destruct (IH _ _ H _ Hin) as (A & B). split; [exact A|]. intros N. destruct (find d2 v) as [e|] eqn:F2; [|exact (B eq_refl)].
    apply Two. destruct G as (_ & G & _). specialize (G v). rewrite N, F2 in G. destruct G as [G | [(es & G) _]]; [discriminate|]. unfold is_dir. rewrite F2. injection G as ->. reflexivity.
Qed.
