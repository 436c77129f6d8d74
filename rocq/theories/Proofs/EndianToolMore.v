(** More about the tool of the debug-endian command: files it does not transform,
    and directories with any number of files. *)
From Verif Require Import Base.Bytes Base.Res Model.Color565 Model.Ycc Model.Kernel Model.Transform Model.Auto Model.Builders Model.Embed Model.Bundle
  Model.Dds Model.Handlers Model.Inspect Model.Cli Model.EndianTest Model.BigEndian Model.BeTransform Model.BeFiles Model.EndianTool.
From Verif Require Import Spec.Layout Spec.Estimator Spec.Files Spec.Dds Spec.Cli Spec.BigEndian Spec.BeFiles Spec.EndianTest Spec.EndianTool.
From Verif Require Import Proofs.BundleFacts Proofs.DdsFacts Proofs.DdsHandler Proofs.DdsMore Proofs.HandlersFacts Proofs.CliFacts Proofs.CliDds Proofs.EndianTestFacts
  Proofs.BigEndianFacts Proofs.BeBundleFacts Proofs.BeDdsHandler Proofs.BeFilesFacts Proofs.EndianToolFacts.
From Coq Require Import Ascii String ZifyBool ZifyNat.
Open Scope list_scope.
Open Scope Z_scope.

(** ** Files that are not transformed *)

Section Attempts.
Context {St Er : Type}.
Variable ext : path -> option string.
Variable h : handler (bundle St Er) St.
Lemma attempt_success : forall (o : io) ip op b fs w r fs1 w1 x, ip <> op -> fs ip = Some x ->
  transform_file_with_multiple_handlers ext o [h] ip op b fs w = Ok (r, fs1, w1) ->
  fs1 ip = Some x /\
  (forall g, r = ROk g -> exists out w0 y w2, zlen out = zlen x /\ h_transform h b x out w0 = Ok (ROk tt, y, w2)).
Proof.
  intros o ip op b fs w r fs1 w1 x N F E. unfold transform_file_with_multiple_handlers, map_input in E. rewrite F in E.
  destruct (open_ok o ip && map_ok o ip); [|injection E as <- <- <-; split; [exact F|discriminate]].
  cbn [try_file_handlers] in E. destruct (h_can_handle h x (ext ip) w) as [[[|] w2]| |]; cbn [bind] in E; try discriminate.
  2:{ injection E as <- <- <-. split; [exact F|discriminate]. }
  destruct (into_new_file o _ (Some ip) (zlen x) op fs w2) as [[[u fs2] w3]| |] eqn:Q; cbn [bind] in E; try discriminate.
  assert (fs1 = fs2) as -> by (destruct u; injection E as _ <- _; reflexivity).
  split; [rewrite (into_other _ _ _ _ _ _ _ _ _ _ Q ip N); exact F|].
  intros g ->. destruct u as [u|e]; [|discriminate E].
  destruct (into_success _ _ _ _ _ _ _ _ _ _ (zlen_nonneg _ x) Q) as (d & y & Ld & R & _).
  rewrite slice_transform_id in R by exact Ld. exists d, w2, y, w3. split; [exact Ld|exact R].
Qed.
Lemma combinations_success : forall (o : stable_variant -> bool -> io) build l ip op fs w fs1 w1 x, ip <> op -> fs ip = Some x ->
  test_combinations ext [h] o build l ip op fs w = Ok (ROk tt, fs1, w1) ->
  exists v s out w0 y w2, zlen out = zlen x /\ h_transform h (build v s) x out w0 = Ok (ROk tt, y, w2).
Proof.
  intros o build l. induction l as [|[v s] l IH]; intros ip op fs w fs1 w1 x N F E; cbn [test_combinations] in E; [discriminate|].
  destruct (transform_file_with_multiple_handlers _ _ _ _ _ _ _ _) as [[[r fs2] w2]| |] eqn:Q; cbn [bind] in E; try discriminate.
  destruct (attempt_success _ _ _ _ _ _ _ _ _ _ N F Q) as (F2 & S). destruct r as [g|e].
  - exists v, s. exact (S g eq_refl).
  - exact (IH _ _ _ _ _ _ _ N F2 E).
Qed.
End Attempts.

Section Fails.
Context {St Er : Type}.
Variables (show : Er -> string) (c : cfg) (v : env) (ext : path -> option string) (name : string).
Variables (o0 : io) (o : stable_variant -> bool -> io) (ou : string -> io) (rd : nat -> option Z) (w : St).
Hypothesis (K : supported c) (D : c_debug c = false) (U : 2 ^ 32 - 1 <= usize_max v).
Let le := tool_machine ext (all_handlers show c v) (all_inspectors false v) name o0 o ou rd w.
Lemma transforms_whole : forall x d, run_transform le x = ROk (true, d) -> exists k i, whole_file k x i.
Proof.
  intros x d E. destruct (join_dirs name) as (J & _). unfold le, tool_machine in E. cbn [run_transform] in E.
  set (p := join "in" name) in *. set (q := join "transformed" name) in *. set (fs := set_file (fun _ => None) p x) in *.
  assert (F : fs p = Some x) by apply set_same.
  destruct (handle_transform_single_file _ _ _ _ _ _ _ _ _) as [[[[[]|e] fs1] w1]| |] eqn:H; try discriminate E. clear E.
  assert (G : exists (t : bundle St Er) out w0 y w2, zlen out = zlen x /\ dds_transform_bundle show c v t x out w0 = Ok (ROk tt, y, w2)).
  { unfold handle_transform_single_file in H. destruct (get_transform_format _ _ _ _ _ _) as [[[f|]|e]| |]; cbn [bind] in H; try discriminate H.
    destruct f; try discriminate H; destruct (combinations_success _ _ _ _ _ _ _ _ _ _ _ _ J F H) as (s1 & s2 & out & w0 & y & w2 & L & T); eexists; exists out, w0, y, w2; (split; [exact L|exact T]). }
  destruct G as (t & out & w0 & y & w2 & L & T). destruct (transform_parses _ _ _ _ _ _ _ _ _ T) as (i & P).
  destruct (transform_success _ _ _ _ _ _ _ _ _ _ K P ltac:(rewrite D; discriminate) U T) as (k & s & F1 & _ & Hm & Hl & _).
  rewrite D in P. exists k, i. split; [exact P|]. split; [exact F1|]. split; [exact Hl|exact Hm].
Qed.
Lemma always_runs : forall {St' Er'} (ext' : path -> option string) (hs : list (handler (bundle St' Er') St')) ns nm a b e r (w' : St') x,
  exists t d, run_transform (tool_machine ext' hs ns nm a b e r w') x = ROk (t, d).
Proof. intros. unfold tool_machine. cbn [run_transform]. destruct (handle_transform_single_file _ _ _ _ _ _ _ _ _) as [[[r0 fs0] w0]| |]; eauto. Qed.

(** A file that is not a BC1 or BC2 texture: nothing is made. *)
Lemma nothing_made : forall x, ~ (has_magic x = true /\ complete_headers x = true /\ (stated_format x = DBC1 \/ stated_format x = DBC2)) ->
  exists d, run_transform le x = ROk (false, d) /\ d_tree d = Folder (Some []) /\ forall n, on_disk (d_file d [n]) = None.
Proof.
  intros x NW. destruct (join_dirs name) as (J & _). unfold le, tool_machine. cbn [run_transform].
  set (p := join "in" name) in *. set (q := join "transformed" name) in *. set (fs := set_file (fun _ => None) p x).
  assert (F : fs q = None) by (unfold fs; rewrite set_other by congruence; reflexivity).
  assert (H : exists e, handle_transform_single_file ext (all_handlers show c v) (all_inspectors false v) o0 o p q fs w = Ok (RErr e, fs, w)).
  { unfold handle_transform_single_file, get_transform_format, map_input. replace (fs p) with (Some x) by (symmetry; apply set_same).
    destruct (open_ok o0 p && map_ok o0 p); [|eexists; reflexivity]. unfold all_inspectors. cbn [format_loop n_can_handle n_format dds_inspector].
    pose proof (parse_dds_spec false x) as S.
    assert (C : dds_can_handle false x (ext p) = Ok (dds_named (ext p) && match parse_dds false x with Ok (Some _) => true | _ => false end)).
    { unfold dds_can_handle, dds_named. destruct (ext p) as [e|]; [destruct (String.eqb e "dds"); cbn [negb andb]; [|reflexivity]|];
      (destruct (parse_dds false x) as [[i|]|y|y]; [reflexivity|reflexivity|destruct S as (S & _); discriminate S|destruct S]). }
    rewrite C. cbn [bind]. destruct (dds_named (ext p)); cbn [andb]; [|eexists; reflexivity].
    destruct (parse_dds false x) as [[i|]|y|y] eqn:P; [|eexists; reflexivity|destruct S as (S & _); discriminate S|destruct S].
    rewrite (get_format_eq false x AllFormats (Some i) P). destruct S as (S1 & S2 & _).
    destruct (stated_format x) eqn:SF; cbn [block_format filter_accepts bind]; try (eexists; reflexivity); exfalso; apply NW; auto. }
  destruct H as (e & ->). eexists. split; [reflexivity|]. unfold directory_of. cbn [d_tree d_file filter map on_disk]. fold q. rewrite F. split; [reflexivity|].
  intros n. unfold fs. rewrite set_other; [reflexivity|]. unfold p, join. cbn [String.append]. discriminate.
Qed.
End Fails.

Section Verdict.
Context {St1 Er1 St2 Er2 : Type}.
Variables (show1 : Er1 -> string) (show2 : Er2 -> string) (c : cfg) (j : byte) (v1 v2 : env).
Variables (ext1 ext2 : path -> option string) (name : string).
Variables (o01 o02 : io) (o1 o2 : stable_variant -> bool -> io) (ou1 ou2 : string -> io) (rd1 rd2 : nat -> option Z) (w1 : St1) (w2 : St2).
Hypothesis (K : supported c) (D : c_debug c = false) (U1 : 2 ^ 32 + 147 <= usize_max v1) (U2 : 2 ^ 32 + 147 <= usize_max v2).
Hypothesis (X1 : forall dir, dds_named (ext1 (join dir name)) = true) (X2 : forall dir, dds_named (ext2 (join dir name)) = true) (FN : file_name name).
Hypothesis (W01 : all_works o01) (W02 : all_works o02) (W1 : forall v s, all_works (o1 v s)) (W2 : forall v s, all_works (o2 v s)).
Hypothesis (WU1 : forall m, all_works (ou1 m)) (WU2 : forall m, all_works (ou2 m)) (R1 : full_reads rd1) (R2 : full_reads rd2).
Let le := tool_machine ext1 (all_handlers show1 c v1) (all_inspectors false v1) name o01 o1 ou1 rd1 w1.
Let be := tool_machine ext2 (be_all_handlers show2 (big_endian_cpu false j) v2) (all_inspectors false v2) name o02 o2 ou2 rd2 w2.
Lemma verdict : forall tests, (forall x, In x tests -> zlen x <= usize_max v1 /\ zlen x <= usize_max v2) ->
  (handle_debug_command le be tests = Ok (ROk tt) /\ forall x, In x tests -> exists k i, whole_file k x i) \/
  (handle_debug_command le be tests = Ok (RErr TestsFailed) /\ exists x, In x tests /\ ~ exists k i, whole_file k x i).
Proof.
  intros tests H. unfold handle_debug_command.
  assert (A : exists rs, run_all_endian_tests le be tests = Ok (ROk rs) /\
    (((forall r, In r rs -> is_success r = true) /\ forall x, In x tests -> exists k i, whole_file k x i) \/
     (exists r, In r rs /\ is_success r = false) /\ exists x, In x tests /\ ~ exists k i, whole_file k x i)).
  { induction tests as [|f fs IH].
    - exists []. split; [reflexivity|]. left. split; intros ? [].
    - destruct IH as (rs & E2 & S2); [intros g Hg; apply H; right; exact Hg|]. cbn [run_all_endian_tests].
      destruct (run_transform le f) as [[[|] d]|e] eqn:T.
      + destruct (transforms_whole show1 c v1 ext1 name o01 o1 ou1 rd1 w1 K D ltac:(lia) f d T) as (k & i & WF).
        destruct (H f (or_introl eq_refl)) as (L1 & L2).
        destruct (tool_single show1 show2 c j v1 v2 ext1 ext2 name o01 o02 o1 o2 ou1 ou2 rd1 rd2 w1 w2 K D U1 U2 X1 X2 FN W01 W02 W1 W2 WU1 WU2 R1 R2 k f i WF L1 L2)
          as (_ & _ & _ & _ & _ & _ & _ & _ & _ & _ & _ & _ & E).
        fold le be in E. rewrite E. cbn [bind]. rewrite E2. cbn [bind]. eexists. split; [reflexivity|].
        destruct S2 as [(S & WA)|((r & Hr & Sr) & x & Hx & Nx)]; [left|right].
        * split; [intros r [<-|Hr]; [reflexivity|exact (S r Hr)]|]. intros x [<-|Hx]; [exists k, i; exact WF|exact (WA x Hx)].
        * split; [exists r; split; [right; exact Hr|exact Sr]|]. exists x. split; [right; exact Hx|exact Nx].
      + destruct (always_runs ext2 (be_all_handlers show2 (big_endian_cpu false j) v2) (all_inspectors false v2) name o02 o2 ou2 rd2 w2 f) as (tb & db & Tb).
        change (run_transform be f = ROk (tb, db)) in Tb. unfold run_single_endian_test. rewrite T, Tb. cbn [andb bind]. rewrite E2. cbn [bind]. eexists. split; [reflexivity|]. right.
        split; [eexists; split; [left; reflexivity|reflexivity]|]. exists f. split; [left; reflexivity|].
        intros (k & i & WF). destruct (H f (or_introl eq_refl)) as (L1 & L2).
        destruct (tool_single show1 show2 c j v1 v2 ext1 ext2 name o01 o02 o1 o2 ou1 ou2 rd1 rd2 w1 w2 K D U1 U2 X1 X2 FN W01 W02 W1 W2 WU1 WU2 R1 R2 k f i WF L1 L2)
          as (dl & db' & rl & rb & T1 & _). fold le in T1. congruence.
      + destruct (always_runs ext1 (all_handlers show1 c v1) (all_inspectors false v1) name o01 o1 ou1 rd1 w1 f) as (tb & db & Tb).
        change (run_transform le f = ROk (tb, db)) in Tb. congruence. }
  destruct A as (rs & E & [(S & WA)|((r & Hr & Sr) & X)]); rewrite E; cbn [bind]; [left|right].
  - rewrite (proj2 (report_spec rs) S). split; [reflexivity|exact WA].
  - split; [|exact X]. destruct (report_results rs) as [[]|e] eqn:Q.
    + rewrite (proj1 (report_spec rs) Q r Hr) in Sr. discriminate Sr.
    + unfold report_results in Q. destruct (zlen (filter is_success rs) =? zlen rs); [discriminate|]. injection Q as <-. reflexivity.
Qed.
End Verdict.

(** ** Directories *)

Lemma no_slash_join : forall d a, ~ no_slash (String.append d (String "/" a)).
Proof. induction d as [|x d IH]; intros a; cbn [String.append no_slash]; [intros (N & _); apply N; reflexivity|]. intros (_ & N). exact (IH a N). Qed.
Lemma join_inj : forall d1 d2 a b, no_slash a -> no_slash b -> join d1 a = join d2 b -> d1 = d2 /\ a = b.
Proof.
  unfold join. induction d1 as [|x d1 IH]; intros [|y d2] a b Na Nb E; cbn [String.append] in E; injection E as E1.
  - split; [reflexivity|exact E1].
  - exfalso. subst a. exact (no_slash_join _ _ Na).
  - exfalso. subst b. exact (no_slash_join _ _ Nb).
  - subst y. destruct (IH d2 a b Na Nb H) as (-> & ->). split; reflexivity.
Qed.

Lemma leaf_dec : forall n (es : list (option (string * tree))), {In (Some (n, Leaf)) es} + {~ In (Some (n, Leaf)) es}.
Proof.
  intros n. induction es as [|e es [IH|IH]]; [right; intros []|left; right; exact IH|].
  destruct e as [[m [|sub]]|]; [|right; intros [Q|Q]; [discriminate Q|exact (IH Q)]|right; intros [Q|Q]; [discriminate Q|exact (IH Q)]].
  destruct (string_dec m n) as [->|N]; [left; left; reflexivity|right]. intros [Q|Q]; [injection Q as Q; exact (N Q)|exact (IH Q)].
Qed.
Section Restore.
Context {St Er : Type}.
Variable ext : path -> option string.
Variable h : handler (bundle St Er) St.
Variables (ou : string -> io) (ind outd : string) (w : St) (orig : string -> list byte).
Hypothesis (WU : forall m, all_works (ou m)) (ND : ind <> outd).
Lemma entries_restored : forall es fs,
  (forall e, In e es -> exists n t, e = Some (n, t) /\ no_slash n) ->
  (forall n, In (Some (n, Leaf)) es -> exists y, fs (join ind n) = Some y /\ h_can_handle_untransform h y (ext (join ind n)) w = Ok (true, w) /\
     forall out, zlen out = zlen y -> h_untransform h y out w = Ok (ROk tt, orig n, w)) ->
  exists fs', untransform_entries ext [h] ou ind outd es fs w = Ok (ROk tt, fs', w) /\
    (forall n, In (Some (n, Leaf)) es -> fs' (join outd n) = Some (orig n)) /\
    (forall p, (forall n, In (Some (n, Leaf)) es -> p <> join outd n) -> fs' p = fs p).
Proof.
  induction es as [|e es IH]; intros fs NS HY.
  - exists fs. split; [reflexivity|]. split; [intros n []|reflexivity].
  - destruct (NS e (or_introl eq_refl)) as (n & t & -> & Sn). cbn [untransform_entries]. destruct t as [|sub].
    + destruct (HY n (or_introl eq_refl)) as (y & F & A & R).
      assert (JN : join ind n <> join outd n) by (intros Q; destruct (join_inj _ _ _ _ Sn Sn Q) as (Q1 & _); exact (ND Q1)).
      destruct (into_ok w (ou n) (fun out w => untransform_slice h y out w) (join ind n) (zlen y) (join outd n) fs (orig n) (WU n) (zlen_nonneg _ _) JN) as (fs1 & R1 & R2).
      { intros out L. rewrite slice_untransform_id by exact L. apply R, L. }
      assert (E : untransform_file_with_multiple_handlers ext (ou n) [h] (join ind n) (join outd n) fs w = Ok (ROk h, fs1, w)).
      { unfold untransform_file_with_multiple_handlers, map_input. rewrite F. destruct (WU n (join ind n)) as (-> & -> & _). cbn [andb try_file_handlers]. rewrite A. cbn [bind]. rewrite R1. reflexivity. }
      rewrite E. cbn [bind]. pose proof (into_other _ _ _ _ _ _ _ _ _ _ R1) as Keep.
      destruct (IH fs1) as (fs' & E' & Rs & Ot).
      * intros e He. apply NS. right. exact He.
      * intros m Hm. destruct (HY m (or_intror Hm)) as (y' & F' & A' & R'). exists y'. split; [|split; [exact A'|exact R']].
        rewrite Keep; [exact F'|]. destruct (NS _ (or_intror Hm)) as (m' & t' & Q & Sm). injection Q as <- <-.
        intros Q. destruct (join_inj _ _ _ _ Sm Sn Q) as (Q1 & _). exact (ND Q1).
      * exists fs'. split; [exact E'|]. split.
        -- intros m [Q|Hm]; [|exact (Rs m Hm)]. injection Q as <-.
           destruct (leaf_dec n es) as [Hi|Hi]; [exact (Rs n Hi)|].
           rewrite Ot; [exact R2|]. intros m Hm Q. destruct (NS _ (or_intror Hm)) as (m' & t' & Q' & Sm). injection Q' as <- <-.
           destruct (join_inj _ _ _ _ Sn Sm Q) as (_ & ->). exact (Hi Hm).
        -- intros p Np. rewrite Ot; [apply Keep; exact (Np n (or_introl eq_refl))|]. intros m Hm. exact (Np m (or_intror Hm)).
    + destruct (IH fs) as (fs' & E' & Rs & Ot); [intros e He; apply NS; right; exact He|intros m Hm; exact (HY m (or_intror Hm))|].
      exists fs'. split; [exact E'|]. split.
      * intros m [Q|Hm]; [discriminate Q|exact (Rs m Hm)].
      * intros p Np. apply Ot. intros m Hm. exact (Np m (or_intror Hm)).
Qed.
End Restore.

(** Each file in the directory is a transformed DDS file. *)
Lemma directory_restored : forall (St1 Er1 St2 Er2 : Type) (show1 : Er1 -> string) (show2 : Er2 -> string) (c1 c2 : cfg) (v1 v2 : env)
    (b : string -> bundle St1 Er1) (ext : path -> option string) (ou : string -> io) (ind outd : string) (es : list (option (string * tree))) (fs : files) (w : St2) (orig : string -> list byte),
  supported c1 -> supported c2 -> c_debug c1 = false -> c_debug c2 = false -> 2 ^ 32 - 1 <= usize_max v1 ->
  (forall m, all_works (ou m)) -> ind <> outd ->
  (forall e, In e es -> exists n t, e = Some (n, t) /\ file_name n) ->
  (forall n, In (Some (n, Leaf)) es -> dds_named (ext (join ind n)) = true /\ zlen (orig n) <= usize_max v2 /\
     exists y out st st', fs (join ind n) = Some y /\ zlen out = zlen (orig n) /\ dds_transform_bundle show1 c1 v1 (b n) (orig n) out st = Ok (ROk tt, y, st')) ->
  exists fs', handle_untransform_single_file ext (all_handlers show2 c2 v2) ou ind outd (Folder (Some es)) fs w = Ok (ROk tt, fs', w) /\
    (forall n, In (Some (n, Leaf)) es -> fs' (join outd n) = Some (orig n)) /\
    (forall p, (forall n, In (Some (n, Leaf)) es -> p <> join outd n) -> fs' p = fs p).
Proof.
  intros St1 Er1 St2 Er2 show1 show2 c1 c2 v1 v2 b ext ou ind outd es fs w orig K1 K2 D1 D2 U1 WU ND NS HY.
  cbn [handle_untransform_single_file]. apply entries_restored; [exact WU|exact ND| |].
  - intros e He. destruct (NS e He) as (n & t & E & (_ & Q)). exists n, t. split; [exact E|exact Q].
  - intros n Hn. destruct (HY n Hn) as (Nm & U2 & y & out & st & st' & F & L & T).
    assert (Ex : ext (join ind n) = None \/ ext (join ind n) = Some "dds"%string).
    { unfold dds_named in Nm. destruct (ext (join ind n)) as [e|]; [|left; reflexivity]. right. apply String.eqb_eq in Nm. rewrite Nm. reflexivity. }
    exists y. split; [exact F|]. split.
    + cbn [h_can_handle_untransform dds_handler]. rewrite (transformed_recognised show1 c1 c2 v1 (b n) (orig n) out y st st' K1 U1) with (e := ext (join ind n)); [reflexivity|rewrite D1; discriminate|rewrite D2; discriminate|exact L|exact T|exact Ex].
    + destruct (dds_undoes show1 show1 c1 c2 v1 v2 (orig n) K1 K2 U1 U2 ltac:(rewrite D1, D2; intros [Q|Q]; discriminate Q) (b n) out st y st' L T) as (Ly & Un).
      intros d2 L2. destruct (Un d2 st ltac:(congruence)) as (w3 & E). cbn [h_untransform dds_handler] in E |- *.
      destruct (dds_untransform c2 v2 y d2) as [[ro oo]| |]; cbn [bind fst snd] in E; try discriminate E. injection E as -> -> _. reflexivity.
Qed.
