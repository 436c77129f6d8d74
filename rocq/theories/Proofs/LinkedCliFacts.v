(** Facts about runs of the command line tool on a disk with links. *)
From Verif Require Import Base.Bytes Base.Res Model.Color565 Model.Kernel Model.Transform Model.Auto Model.Builders Model.Embed Model.Bundle Model.Dds Model.Handlers Model.Ltu Model.Zstd Model.Cli Model.LinkedCli.
From Verif Require Import Spec.Layout Spec.Estimator Spec.Ltu Spec.Files Spec.Dds Spec.Zstd Spec.Answers Spec.ZstdSizes Spec.Cli Spec.LinkedCli.
From Verif Require Import Proofs.BundleFacts Proofs.DdsFacts Proofs.DdsHandler Proofs.DdsMore Proofs.HandlersFacts Proofs.CliFacts Proofs.CliRuns Proofs.CliDds.
From Coq Require Import Ascii String.
Open Scope list_scope.
Open Scope Z_scope.

Section Run.
Context {B W : Type}.
Variable utf8 : string -> bool.
Variable cmd : command B.
Variable handlers : list (handler B W).
Variable leads_to : path -> path.
Variables I O : components.
Notation step := (linked_step utf8 cmd handlers leads_to I O).
Notation run := (linked_run utf8 cmd handlers leads_to I O).
Notation reachable := (linked_reachable utf8 cmd handlers leads_to I O).
Notation task_step := (task_step utf8 cmd handlers).

Lemma linked_entries entries fs s : reachable entries fs s -> map fst (s_tasks s) = entries.
Proof.
  intros R. unfold linked_reachable in R. remember (start entries fs) as s0 eqn:E. induction R as [s|s s1 partial s2 R IH S].
  - subst s. unfold start. cbn [s_tasks]. rewrite map_map. apply map_id.
  - specialize (IH E). destruct S; cbn [s_tasks] in *; rewrite map_app in *; cbn [map fst] in *; exact IH.
Qed.
Lemma linked_other entries fs s : reachable entries fs s ->
  forall q, (forall r, In (I ++ r) entries -> q <> leads_to (render (O ++ r))) -> s_files s q = fs q.
Proof.
  intros R q N. unfold linked_reachable in R. remember (start entries fs) as s0 eqn:E. induction R as [s|s s1 partial s2 R IH S].
  - subst s. reflexivity.
  - specialize (IH E). pose proof R as R0. rewrite E in R0. pose proof (linked_entries _ _ _ R0) as Es. rewrite <- IH. clear IH R R0 E.
    destruct S as [partial fs1 fs2 pre p ph ph1 post total t T S| |]; [|reflexivity|reflexivity]. cbn [s_files].
    apply (task_other _ _ _ _ _ _ _ _ _ _ _ S). cbn [s_tasks] in Es. destruct (target_some _ _ _ _ T) as (r & -> & ->).
    apply N. rewrite <- Es, map_app. apply in_or_app. right. left. reflexivity.
Qed.

Lemma linked_story_step before p i o partial now ph now1 ph1 : i <> o -> now i = before i ->
  task_step p i o partial now ph now1 ph1 ->
  story utf8 cmd handlers before now p i o ph -> story utf8 cmd handlers before now1 p i o ph1.
Proof.
  intros Alias Same S St.
  destruct S as [fs|fs|fs x F|fs|fs n|fs n x F|fs n x h rest w w1 F A|fs n x h rest w w1 F A|fs n x|fs n x h rest w why F A|fs n x h rest w why F A
    |fs n x h|fs n x h d|fs n x h d L|fs n x h|fs n x h d N F L|fs n x h N|fs n x h N
    |fs n x h d now now1 F G L|fs n x h d now w y w1 F G A|fs n x h d now w e y w1 F G A|fs n x h d now w why F G A|fs n x h d now w why F G A
    |fs ph x M N|fs n x h d now N];
    unfold story in St |- *; rewrite ?update_same.
  - exact St.
  - exact St.
  - split; [exact St|]. right. exists x. split; [congruence|reflexivity].
  - split; [exact St|]. left. reflexivity.
  - exact Logic.I.
  - destruct St as (E & Sz). split; [exact E|]. split; [exact Sz|]. split; [congruence|]. exists []. split; [reflexivity|constructor].
  - destruct St as (E & Sz & Bx & earlier & Eh & D). split; [exact E|]. split; [exact Sz|]. split; [exact Bx|]. exists (earlier ++ [h]).
    rewrite <- app_assoc. split; [exact Eh|]. apply Forall_app. split; [exact D|]. constructor; [exists w, w1; exact A|constructor].
  - destruct St as (E & Sz & Bx & earlier & Eh & D). split; [exact E|]. split; [exact Sz|]. split; [exact Bx|]. exists earlier, rest.
    split; [exact Eh|]. split; [exact D|]. exists w, w1. exact A.
  - destruct St as (E & Sz & Bx & earlier & Eh & D). exists x. split; [exact Bx|]. left. rewrite app_nil_r in Eh. subst earlier. repeat split; assumption.
  - destruct St as (E & Sz & Bx & earlier & Eh & D). exists x. split; [exact Bx|]. exists h, w, why. split; [rewrite Eh; apply in_or_app; right; left; reflexivity|].
    left. exact A.
  - destruct St as (E & Sz & Bx & earlier & Eh & D). exists x. split; [exact Bx|]. exists h, w, why. split; [rewrite Eh; apply in_or_app; right; left; reflexivity|].
    left. exact A.
  - exact Logic.I.
  - exact Logic.I.
  - destruct St as (E & Sz & Bx & Fa). split; [exact Sz|]. split; [exact Bx|]. split; [exact Fa|]. exists d. split; [reflexivity|exact L].
  - exact Logic.I.
  - destruct St as (Sz & Bx & Fa & d1 & E & L1). split; [exact Sz|]. split; [exact Bx|]. split; [exact Fa|]. split; [exact L|]. split; [exact F|exact L].
  - contradiction.
  - exfalso. destruct St as (Sz & Bx & Fa & d1 & E & L1). exact (N d1 E L1).
  - destruct St as (Sz & Bx & Fa & Ld & E & L1). split; [exact Sz|]. split; [exact Bx|]. split; [exact Fa|]. split; [exact Ld|]. split; [reflexivity|congruence].
  - destruct St as (Sz & Bx & Fa & Ld & E & L1). split; [exact Sz|]. exists x, h, d, w, y, w1. split; [exact Bx|]. split; [exact Fa|]. split; [exact Ld|]. split; [exact A|reflexivity].
  - destruct St as (Sz & Bx & Fa & Ld & E & L1). exists x. split; [exact Bx|]. right. exists h, d, w, y, w1. split; [exact Fa|]. split; [exact Ld|]. split; [exact A|reflexivity].
  - destruct St as (Sz & Bx & (e1 & l1 & Eh & _) & Ld & E & L1). exists x. split; [exact Bx|]. exists h, w, why. split; [rewrite Eh; apply in_or_app; right; left; reflexivity|].
    right. exists d. split; [exact Ld|exact A].
  - destruct St as (Sz & Bx & (e1 & l1 & Eh & _) & Ld & E & L1). exists x. split; [exact Bx|]. exists h, w, why. split; [rewrite Eh; apply in_or_app; right; left; reflexivity|].
    right. exists d. split; [exact Ld|exact A].
  - exfalso. apply N. rewrite Same. destruct ph; try discriminate M; injection M as <-; intuition.
  - exfalso. destruct St as (Sz & Bx & Fa & Ld & E & L1). exact (N E).
Qed.

Section Apart.
Variables (entries : list components) (before : files).
Hypothesis Below : files_below I entries.
Hypothesis Spares : spares_inputs leads_to I O entries.
Hypothesis Differ : outputs_differ leads_to I O entries.

Lemma linked_state s : reachable entries before s ->
  (forall p, In p entries -> s_files s (leads_to (render p)) = before (leads_to (render p))) /\
  Forall (fun k => exists r, fst k = I ++ r /\ story utf8 cmd handlers before (s_files s) (fst k) (leads_to (render (fst k))) (leads_to (render (O ++ r))) (snd k)) (s_tasks s) /\
  s_total s = sum (map (fun k => counted (snd k)) (s_tasks s)) mod 2 ^ 64.
Proof.
  assert (Below1 : forall p, In p entries -> exists r, p = I ++ r).
  { intros p Hp. destruct Below as (_ & F). rewrite Forall_forall in F. destruct (F p Hp) as (r & Er & _). exists r. exact Er. }
  assert (Keep : forall s, reachable entries before s -> forall p, In p entries -> s_files s (leads_to (render p)) = before (leads_to (render p))).
  { intros s0 R p Hp. apply (linked_other _ _ _ R). intros r Hr K. destruct (Below1 p Hp) as (r1 & ->). exact (Spares r r1 Hr Hp (eq_sym K)). }
  intros R. split; [exact (Keep s R)|]. split.
  - unfold linked_reachable in R. remember (start entries before) as s0 eqn:E0. induction R as [s|s s1 partial s2 R IH S].
    + subst s. unfold start. cbn [s_tasks s_files]. apply Forall_forall. intros [p ph] K. apply in_map_iff in K. destruct K as (p1 & K & Hp).
      injection K as <- <-. destruct (Below1 p1 Hp) as (r & Er). exists r. cbn [fst snd story]. split; [exact Er|reflexivity].
    + specialize (IH E0). pose proof R as R0. rewrite E0 in R0. pose proof (linked_entries _ _ _ R0) as Es. specialize (Keep _ R0).
      clear R R0 E0.
      destruct S as [partial fs1 fs2 pre p ph ph1 post total t T S|fs1 pre p post total T|fs1 pre p k post total]; cbn [s_tasks s_files] in *.
      * assert (Hp : In p entries) by (rewrite <- Es, map_app; apply in_or_app; right; left; reflexivity).
        assert (ND : NoDup (map fst pre ++ p :: map fst post)) by (rewrite map_app in Es; cbn [map fst] in Es; rewrite Es; exact (proj1 Below)).
        destruct (target_some _ _ _ _ T) as (r & -> & ->).
        apply Forall_app in IH. destruct IH as (IH1 & IH2). inversion IH2 as [|? ? IHp IH3]; subst x l. cbn [fst snd] in IHp.
        destruct IHp as (r1 & E1 & Sp). apply app_inv_head in E1. subst r1.
        assert (Others : forall k, In k pre \/ In k post ->
          (exists u, fst k = I ++ u /\ story utf8 cmd handlers before fs1 (fst k) (leads_to (render (fst k))) (leads_to (render (O ++ u))) (snd k)) ->
          exists u, fst k = I ++ u /\ story utf8 cmd handlers before fs2 (fst k) (leads_to (render (fst k))) (leads_to (render (O ++ u))) (snd k)).
        { intros k Hk (u & U & Sk). exists u. split; [exact U|]. refine (story_frame _ _ _ _ _ _ _ _ _ _ _ Sk). intros q ->.
          apply (task_other _ _ _ _ _ _ _ _ _ _ _ S). intros K. apply Differ in K; [|rewrite <- U|exact Hp].
          - subst u. apply NoDup_remove_2 in ND. apply ND. rewrite <- U. destruct Hk as [Hk|Hk]; apply in_or_app; [left|right]; apply in_map; exact Hk.
          - rewrite <- Es, map_app. cbn [map fst]. destruct Hk as [Hk|Hk]; apply in_or_app; [left|right; right]; apply in_map; exact Hk. }
        apply Forall_app. split; [|constructor].
        -- rewrite Forall_forall in IH1 |- *. intros k Hk. apply Others; [left; exact Hk|exact (IH1 k Hk)].
        -- cbn [fst snd]. exists r. split; [reflexivity|]. refine (linked_story_step _ _ _ _ _ _ _ _ _ _ _ S Sp); [|exact (Keep _ Hp)].
           intros K. exact (Spares r r Hp Hp (eq_sym K)).
        -- rewrite Forall_forall in IH3 |- *. intros k Hk. apply Others; [right; exact Hk|exact (IH3 k Hk)].
      * exfalso. assert (Hp : In p entries) by (rewrite <- Es, map_app; apply in_or_app; right; left; reflexivity).
        destruct (Below1 p Hp) as (r & ->). rewrite target_app in T. discriminate T.
      * apply Forall_app in IH. destruct IH as (IH1 & IH2). inversion IH2 as [|? ? IHp IH3]; subst x l. apply Forall_app. split; [exact IH1|]. constructor; [exact IHp|exact IH3].
  - clear Keep. unfold linked_reachable in R. remember (start entries before) as s0 eqn:E0. induction R as [s|s s1 partial s2 R IH S].
    + subst s. unfold start. cbn [s_tasks s_total]. rewrite map_map. cbn [snd counted].
      assert (Z0 : sum (map (fun _ : components => 0) entries) = 0) by (clear; induction entries as [|a l IHl]; [reflexivity|]; cbn [map]; rewrite sum_cons, IHl; reflexivity).
      rewrite Z0. reflexivity.
    + specialize (IH E0).
      destruct S as [partial fs1 fs2 pre p ph ph1 post total t T S|fs1 pre p post total T|fs1 pre p k post total]; cbn [s_tasks s_total] in *;
        rewrite map_app, sum_app in *; cbn [map snd] in *; rewrite sum_cons in *.
      * assert (C : counted ph1 = counted ph) by (destruct S as [| | | | | | | | | | | | | | | | | | | | | | | fs ph x M N|]; try reflexivity; destruct ph; try discriminate M; reflexivity). rewrite C. exact IH.
      * exact IH.
      * cbn [counted] in *. rewrite IH, Z.add_mod_idemp_l by lia. f_equal. lia.
Qed.
End Apart.
End Run.

Lemma linked_explained {B W} utf8 (cmd : command B) (hs : list (handler B W)) leads_to I O entries before s :
  files_below I entries -> spares_inputs leads_to I O entries -> outputs_differ leads_to I O entries ->
  linked_reachable utf8 cmd hs leads_to I O entries before s ->
  (forall p, In p entries -> s_files s (leads_to (render p)) = before (leads_to (render p))) /\
  map fst (s_tasks s) = entries /\
  (forall r ph, In (I ++ r, ph) (s_tasks s) ->
     story utf8 cmd hs before (s_files s) (I ++ r) (leads_to (render (I ++ r))) (leads_to (render (O ++ r))) ph) /\
  s_total s = sum (map (fun k => counted (snd k)) (s_tasks s)) mod 2 ^ 64.
Proof.
  intros Bl Sp Df R. destruct (linked_state utf8 cmd hs leads_to I O entries before Bl Sp Df s R) as (K1 & K2 & K3).
  split; [exact K1|]. split; [exact (linked_entries _ _ _ _ _ _ _ _ _ R)|]. split; [|exact K3].
  intros r ph Hin. rewrite Forall_forall in K2. destruct (K2 _ Hin) as (r1 & E & Sy). cbn [fst snd] in E, Sy. apply app_inv_head in E. subst r1. exact Sy.
Qed.

(** No links on the way to the outputs is enough. *)
Lemma plain_enough leads_to I O entries : files_below I entries -> Forall file_name O -> plain_output leads_to I O entries ->
  spares_inputs leads_to I O entries /\ outputs_differ leads_to I O entries.
Proof.
  intros (_ & F) NO (P1 & P2). split.
  - intros r1 r2 H1 H2 K. rewrite (P1 r1 H1) in K. exact (P2 r2 r1 H2 H1 (eq_sym K)).
  - intros r1 r2 H1 H2 K. rewrite (P1 r1 H1), (P1 r2 H2) in K.
    assert (G : forall r, In (I ++ r) entries -> Forall file_name (O ++ r)).
    { intros r H. rewrite Forall_forall in F. destruct (F _ H) as (r0 & _ & _ & Fp). apply Forall_app in Fp. apply Forall_app. split; [exact NO|tauto]. }
    apply render_inj in K; [|exact (G r1 H1)|exact (G r2 H2)]. apply app_inv_head in K. exact K.
Qed.
(** Directories that are apart, on a disk without links. *)
Lemma apart_plain I O entries : files_below I entries -> Forall file_name O -> apart I O -> plain_output (fun p => p) I O entries.
Proof.
  intros (N & F) NO A. split; [reflexivity|]. intros r1 r2 H1 H2 K. pose proof F as F0. rewrite Forall_forall in F.
  destruct (F _ H1) as (q1 & _ & _ & F1). destruct (F _ H2) as (q2 & _ & _ & F2). apply Forall_app in F2.
  apply render_inj in K; [|exact F1|apply Forall_app; split; [exact NO|tauto]].
  apply (apart_separate I O entries A (conj N F0) (I ++ r2) (I ++ r1) H2 H1). rewrite target_app. f_equal. symmetry. exact K.
Qed.
Lemma without_links {B W} utf8 (cmd : command B) (hs : list (handler B W)) I O entries fs s :
  linked_reachable utf8 cmd hs (fun p => p) I O entries fs s <-> reachable utf8 cmd hs I O entries fs s.
Proof.
  split.
  - unfold linked_reachable, reachable. generalize (start (B := B) (W := W) entries fs). intros s0 R. induction R as [s|s s1 partial s2 R IH S]; [exists 0%nat; constructor|].
    destruct IH as (n & IH). eexists. eapply run_step; [exact IH|]. destruct S as [? ? ? ? ? ? ? ? ? ? T S|? ? ? ? ? T|? ? ? ? ? ?].
    + exact (step_task _ _ _ _ _ _ _ _ _ _ _ _ _ _ _ T S).
    + exact (step_unwrap _ _ _ _ _ _ _ _ _ _ T).
    + apply step_count.
  - unfold linked_reachable, reachable. generalize (start (B := B) (W := W) entries fs). intros s0 (n & R). induction R as [s|n s s1 partial s2 R IH S]; [constructor|].
    eapply linked_more; [exact IH|]. destruct S as [? ? ? ? ? ? ? ? ? ? T S|? ? ? ? ? T|? ? ? ? ? ?].
    + exact (linked_task _ _ _ (fun p => p) _ _ _ _ _ _ _ _ _ _ _ _ T S).
    + exact (linked_unwrap _ _ _ (fun p => p) _ _ _ _ _ _ _ T).
    + apply linked_count.
Qed.

Section Dds.
Context {St Er : Type}.
Variable utf8 : string -> bool.
Variable show : Er -> string.
Variables (c : cfg) (v : env).
Notation hs := (all_handlers (St := St) show c v).
Lemma linked_never_undefined (cmd : command (bundle St Er)) leads_to I O entries before s : supported c -> 2 ^ 32 - 1 <= usize_max v ->
  (forall p x, In p entries -> before (leads_to (render p)) = Some x ->
     c_debug c = true -> forall i, parse_dds_ignore_magic true x = Ok (Some i) -> 0 < i_data_length i) ->
  files_below I entries -> spares_inputs leads_to I O entries -> outputs_differ leads_to I O entries ->
  linked_reachable utf8 cmd hs leads_to I O entries before s ->
  forall p, ~ In (p, Undefined) (s_tasks s).
Proof.
  intros K U D Bl Sp Df R p Hin. destruct (linked_explained _ _ _ _ _ _ _ _ _ Bl Sp Df R) as (_ & Es & Sy & _).
  assert (Hp : In p entries) by (rewrite <- Es; apply (in_map fst) in Hin; exact Hin).
  pose proof (proj2 Bl) as F. rewrite Forall_forall in F. destruct (F p Hp) as (r & -> & _).
  specialize (Sy r _ Hin). cbn [story] in Sy. destruct Sy as (x & Bx & h & w & why & Hh & Q).
  destruct (dds_no_ub utf8 show c v cmd h x (I ++ r) w why K U (D _ _ Hp Bx) Hh) as (Q1 & Q2). destruct Q as [Q|(d & Ld & Q)]; [exact (Q1 Q)|exact (Q2 d Ld Q)].
Qed.
Lemma linked_never_panics (cmd : command (bundle St Er)) leads_to I O entries before s : supported c -> 2 ^ 32 + 147 <= usize_max v ->
  (forall p x, In p entries -> before (leads_to (render p)) = Some x ->
     (c_debug c = true -> forall i, parse_dds_ignore_magic true x = Ok (Some i) -> 0 < i_data_length i) /\ (c_debug c = true -> levels_fit x)) ->
  files_below I entries -> spares_inputs leads_to I O entries -> outputs_differ leads_to I O entries ->
  linked_reachable utf8 cmd hs leads_to I O entries before s ->
  forall p, ~ In (p, Panicked) (s_tasks s).
Proof.
  intros K U D Bl Sp Df R p Hin. destruct (linked_explained _ _ _ _ _ _ _ _ _ Bl Sp Df R) as (_ & Es & Sy & _).
  assert (Hp : In p entries) by (rewrite <- Es; apply (in_map fst) in Hin; exact Hin).
  pose proof (proj2 Bl) as F. rewrite Forall_forall in F. destruct (F p Hp) as (r & -> & _).
  specialize (Sy r _ Hin). cbn [story] in Sy. destruct Sy as (x & Bx & h & w & why & Hh & Q). destruct (D _ _ Hp Bx) as (D1 & D2).
  destruct (dds_no_panic utf8 show c v cmd h x (I ++ r) w why K U D1 D2 Hh) as (Q1 & Q2). destruct Q as [Q|(d & Ld & Q)]; [exact (Q1 Q)|exact (Q2 d Ld Q)].
Qed.
End Dds.

Section Round.
Context {St1 Er1 St2 Er2 : Type}.
Lemma stories_round_trip (utf8 : string -> bool) (show1 : Er1 -> string) (show2 : Er2 -> string) c1 c2 v1 v2 (b : bundle St1 Er1) I O
    (fs1 now1 fs2 now2 : files) i1 o1 i2 o2 r x (ph1 : phase (B := bundle St1 Er1) (W := St1)) (ph2 : phase (B := bundle St2 Er2) (W := St2)) :
  supported c1 -> supported c2 -> 2 ^ 32 - 1 <= usize_max v1 -> zlen x <= usize_max v2 ->
  (c_debug c1 = true \/ c_debug c2 = true -> levels_fit x /\ forall i, parse_dds (c_debug c1) x = Ok (Some i) -> 0 < i_data_length i) ->
  r <> [] -> fs1 i1 = Some x -> succeeded ph1 ->
  story utf8 (TransformDir b) (all_handlers show1 c1 v1) fs1 now1 (I ++ r) i1 o1 ph1 ->
  fs2 i2 = now1 o1 ->
  story utf8 UntransformDir (all_handlers show2 c2 v2) fs2 now2 (O ++ r) i2 o2 ph2 ->
  (succeeded ph2 -> now2 o2 = Some x) /\
  (finished ph2 -> (exists n, ph2 = Counted n) \/ ph2 = Returned (RErr CIo) \/ ph2 = Returned (RErr (CFile FIo))).
Proof.
  intros K1 K2 U1 U2 D Rn F1 S1 Sy1 F2 Sy2.
  assert (G : exists d w y w1, zlen d = zlen x /\ dds_named (extension_of utf8 (I ++ r)) = true /\
    dds_transform_bundle show1 c1 v1 b x d w = Ok (ROk tt, y, w1) /\ fs2 i2 = Some y).
  { assert (G0 : exists x0 h d w y w1, fs1 i1 = Some x0 /\ first_accepting utf8 (TransformDir b) (all_handlers show1 c1 v1) x0 (I ++ r) h /\ zlen d = zlen x0 /\
      work (TransformDir b) h x0 d w = Ok (ROk tt, y, w1) /\ now1 o1 = Some y).
    { destruct ph1 as [| |n|n z rest|n z h|n z h|n z h d0 now|[n|e]|n| |]; try contradiction; exact (proj2 Sy1). }
    destruct G0 as (x0 & h & d & w & y & w1 & F0 & Fa & Ld & Wk & Fy). assert (x0 = x) by congruence. subst x0.
    pose proof (only_handler _ _ _ _ _ _ _ _ Fa) as ->. exists d, w, y, w1. split; [exact Ld|]. split; [|split; [|congruence]].
    - destruct Fa as (_ & _ & _ & _ & w2 & w3 & Ac). cbn [accepts h_can_handle dds_handler] in Ac.
      pose proof (can_handle_spec (c_debug c1) x (extension_of utf8 (I ++ r))) as S. destruct (dds_can_handle _ _ _) as [a| |]; cbn [bind] in Ac; try discriminate Ac.
      injection Ac as -> _. destruct (dds_named (extension_of utf8 (I ++ r))); [reflexivity|discriminate S].
    - cbn [work] in Wk. rewrite slice_transform_id in Wk by exact Ld. exact Wk. }
  destruct G as (d & w & y & w1 & Ld & Nm & Tr & Fy).
  rewrite (same_extension utf8 I O r Rn) in Nm.
  assert (Ex : extension_of utf8 (O ++ r) = None \/ extension_of utf8 (O ++ r) = Some "dds"%string).
  { unfold dds_named in Nm. destruct (extension_of utf8 (O ++ r)) as [e|]; [|left; reflexivity]. right. apply String.eqb_eq in Nm. rewrite Nm. reflexivity. }
  assert (Ac : dds_can_handle_untransform (c_debug c2) y (extension_of utf8 (O ++ r)) = Ok true).
  { apply (transformed_recognised show1 c1 c2 v1 b x d y w w1 K1 U1); [| |exact Ld|exact Tr|exact Ex].
    - intros Q i P. apply D; [left; exact Q|]. rewrite Q. exact P.
    - intros Q _. apply D. right. exact Q. }
  destruct (dds_undoes show1 show1 c1 c2 v1 v2 x K1 K2 U1 U2 D b d w y w1 Ld Tr) as (Ly & Un).
  assert (Back : forall d2, zlen d2 = zlen y -> dds_untransform c2 v2 y d2 = Ok (ROk tt, x)).
  { intros d2 L2. destruct (Un d2 w ltac:(congruence)) as (w3 & E). cbn [h_untransform dds_handler] in E.
    destruct (dds_untransform c2 v2 y d2) as [[ro o]| |]; cbn [bind fst snd] in E; try discriminate E. injection E as -> -> _. reflexivity. }
  assert (Acc : forall h w2, In h (all_handlers show2 c2 v2) -> accepts utf8 (UntransformDir (B := bundle St2 Er2)) h y (O ++ r) w2 = Ok (true, w2)).
  { intros h w2 [<-|[]]. cbn [accepts h_can_handle_untransform dds_handler]. rewrite Ac. reflexivity. }
  assert (Wrk : forall h d2 w2, In h (all_handlers show2 c2 v2) -> zlen d2 = zlen y -> work (UntransformDir (B := bundle St2 Er2)) h y d2 w2 = Ok (ROk tt, x, w2)).
  { intros h d2 w2 [<-|[]] L2. cbn [work]. rewrite slice_untransform_id by exact L2. cbn [h_untransform dds_handler]. rewrite (Back d2 L2). reflexivity. }
  assert (InF : forall h, first_accepting utf8 (UntransformDir (B := bundle St2 Er2)) (all_handlers show2 c2 v2) y (O ++ r) h -> In h (all_handlers show2 c2 v2)).
  { intros h (e1 & l1 & E & _). rewrite E. apply in_or_app. right. left. reflexivity. }
  assert (Good : forall n0, (n0 = 0 \/ (exists x1, fs2 i2 = Some x1 /\ n0 = zlen x1)) /\ (exists x1 h d2 w2 y2 w3, fs2 i2 = Some x1 /\
      first_accepting utf8 (UntransformDir (B := bundle St2 Er2)) (all_handlers show2 c2 v2) x1 (O ++ r) h /\ zlen d2 = zlen x1 /\
      work (UntransformDir (B := bundle St2 Er2)) h x1 d2 w2 = Ok (ROk tt, y2, w3) /\ now2 o2 = Some y2) -> now2 o2 = Some x).
  { intros n0 (_ & x1 & h & d2 & w2 & y2 & w3 & F3 & Fa & L2 & Wk & Out). assert (x1 = y) by congruence. subst x1.
    rewrite (Wrk h d2 w2 (InF h Fa) L2) in Wk. injection Wk as <- <-. exact Out. }
  destruct ph2 as [| |n|n z rest|n z h|n z h|n z h d0 now|[n|e]|n| |]; cbn [succeeded finished]; (split; [intros []; fail|intros []; fail]) || idtac.
  - split; [intros _|intros []]. exact (Good n Sy2).
  - split; [intros []|intros _]. destruct e as [|[|e]]; [right; left; reflexivity|right; right; reflexivity|]. exfalso.
    cbn [story] in Sy2. destruct Sy2 as (x1 & F3 & Q). assert (x1 = y) by congruence. subst x1. destruct Q as [(_ & Dc & _)|(h & d2 & w2 & y2 & w3 & Fa & L2 & Wk & _)].
    + unfold all_handlers in Dc. inversion Dc as [|? ? (w2 & w3 & Q) _]; subst. rewrite Acc in Q by (left; reflexivity). discriminate Q.
    + rewrite (Wrk h d2 w2 (InF h Fa) L2) in Wk. discriminate Wk.
  - split; [intros _; exact (Good n Sy2)|intros _]. left. exists n. reflexivity.
  - split; [intros []|intros _]. exfalso. cbn [story] in Sy2. destruct Sy2 as (x1 & F3 & h & w2 & why & Hh & Q). assert (x1 = y) by congruence. subst x1.
    destruct Q as [Q|(d2 & L2 & Q)]; [rewrite (Acc h w2 Hh) in Q; discriminate Q|rewrite (Wrk h d2 w2 Hh L2) in Q; discriminate Q].
  - split; [intros []|intros _]. exfalso. cbn [story] in Sy2. destruct Sy2 as (x1 & F3 & h & w2 & why & Hh & Q). assert (x1 = y) by congruence. subst x1.
    destruct Q as [Q|(d2 & L2 & Q)]; [rewrite (Acc h w2 Hh) in Q; discriminate Q|rewrite (Wrk h d2 w2 Hh L2) in Q; discriminate Q].
Qed.
Lemma linked_round_trip (utf8 : string -> bool) (show1 : Er1 -> string) (show2 : Er2 -> string) c1 c2 v1 v2 (b : bundle St1 Er1) leads_to1 leads_to2 I O R
    entries1 entries2 (fs1 fs2 : files) (s1 : state (B := bundle St1 Er1) (W := St1)) (s2 : state (B := bundle St2 Er2) (W := St2)) r x ph1 ph2 :
  supported c1 -> supported c2 -> 2 ^ 32 - 1 <= usize_max v1 -> zlen x <= usize_max v2 ->
  (c_debug c1 = true \/ c_debug c2 = true -> levels_fit x /\ forall i, parse_dds (c_debug c1) x = Ok (Some i) -> 0 < i_data_length i) ->
  files_below I entries1 -> spares_inputs leads_to1 I O entries1 -> outputs_differ leads_to1 I O entries1 ->
  files_below O entries2 -> spares_inputs leads_to2 O R entries2 -> outputs_differ leads_to2 O R entries2 ->
  linked_reachable utf8 (TransformDir b) (all_handlers show1 c1 v1) leads_to1 I O entries1 fs1 s1 ->
  fs1 (leads_to1 (render (I ++ r))) = Some x -> In (I ++ r, ph1) (s_tasks s1) -> succeeded ph1 ->
  fs2 (leads_to2 (render (O ++ r))) = s_files s1 (leads_to1 (render (O ++ r))) ->
  linked_reachable utf8 UntransformDir (all_handlers show2 c2 v2) leads_to2 O R entries2 fs2 s2 ->
  In (O ++ r, ph2) (s_tasks s2) ->
  (succeeded ph2 -> s_files s2 (leads_to2 (render (R ++ r))) = Some x) /\
  (finished ph2 -> (exists n, ph2 = Counted n) \/ ph2 = Returned (RErr CIo) \/ ph2 = Returned (RErr (CFile FIo))).
Proof.
  intros K1 K2 U1 U2 D B1 P1 D1 B2 P2 D2 R1 F1 T1 S1 F2 R2 T2.
  destruct (linked_explained _ _ _ _ _ _ _ _ _ B1 P1 D1 R1) as (_ & Es1 & Sy1 & _). specialize (Sy1 _ _ T1).
  destruct (linked_explained _ _ _ _ _ _ _ _ _ B2 P2 D2 R2) as (_ & Es2 & Sy2 & _). specialize (Sy2 _ _ T2).
  assert (Rn : r <> []).
  { assert (Hp : In (I ++ r) entries1) by (rewrite <- Es1; apply (in_map fst) in T1; exact T1).
    pose proof (proj2 B1) as F. rewrite Forall_forall in F. destruct (F _ Hp) as (r1 & E & Nr & _). apply app_inv_head in E. subst r1. exact Nr. }
  exact (stories_round_trip utf8 show1 show2 c1 c2 v1 v2 b I O fs1 (s_files s1) fs2 (s_files s2) _ _ _ _ r x ph1 ph2 K1 K2 U1 U2 D Rn F1 S1 Sy1 F2 Sy2).
Qed.
End Round.
