(** Facts about runs of the command line tool. *)
From Verif Require Import Base.Bytes Base.Res Model.Kernel Model.Transform Model.Bundle Model.Dds Model.Handlers Model.Cli Spec.Cli.
From Coq Require Import Ascii String.
Open Scope list_scope.

Lemma nodup_app {A} (l1 l2 : list A) : NoDup l1 -> NoDup l2 -> (forall a, In a l1 -> In a l2 -> False) -> NoDup (l1 ++ l2).
Proof.
  intros N1 N2 D. induction N1 as [|a l Ha N1 IH]; [exact N2|]. cbn [app]. constructor.
  - intros K. apply in_app_or in K. destruct K as [K|K]; [exact (Ha K)|]. exact (D a (or_introl eq_refl) K).
  - apply IH. intros b K1 K2. exact (D b (or_intror K1) K2).
Qed.

(** ** Paths *)
Definition starts_over (r : string) : Prop := r = EmptyString \/ exists q, r = String "/" q.
Lemma name_split : forall a b r1 r2, no_slash a -> no_slash b -> starts_over r1 -> starts_over r2 ->
  String.append a r1 = String.append b r2 -> a = b /\ r1 = r2.
Proof.
  induction a as [|ca a IH]; intros [|cb b] r1 r2 Na Nb S1 S2 E; cbn [String.append] in E.
  - split; [reflexivity|exact E].
  - exfalso. destruct S1 as [->|(q & ->)]; [discriminate E|]. injection E as E1 E2. destruct Nb as (Nb & _). apply Nb. symmetry. exact E1.
  - exfalso. destruct S2 as [->|(q & ->)]; [discriminate E|]. injection E as E1 E2. destruct Na as (Na & _). apply Na. exact E1.
  - injection E as E1 E2. subst cb. destruct Na as (_ & Na), Nb as (_ & Nb).
    destruct (IH b r1 r2 Na Nb S1 S2 E2) as (-> & ->). split; reflexivity.
Qed.
Lemma render_starts p : starts_over (render p).
Proof. destruct p as [|c p]; [left; reflexivity|right]. exists (String.append c (render p)). reflexivity. Qed.
Lemma render_inj : forall p q, Forall file_name p -> Forall file_name q -> render p = render q -> p = q.
Proof.
  induction p as [|a p IH]; intros [|b q] Fp Fq E.
  - reflexivity.
  - discriminate E.
  - discriminate E.
  - cbn [render String.append] in E. injection E as E. inversion Fp as [|? ? (_ & Na) Fp1]; subst. inversion Fq as [|? ? (_ & Nb) Fq1]; subst.
    destruct (name_split _ _ _ _ Na Nb (render_starts p) (render_starts q) E) as (-> & E1). rewrite (IH q Fp1 Fq1 E1). reflexivity.
Qed.
Lemma strip_prefix_app : forall d r, strip_prefix (d ++ r) d = Some r.
Proof. induction d as [|a d IH]; intros r; [destruct r; reflexivity|]. cbn [app strip_prefix]. rewrite String.eqb_refl. apply IH. Qed.
Lemma strip_prefix_some : forall d p r, strip_prefix p d = Some r -> p = d ++ r.
Proof.
  induction d as [|a d IH]; intros p r E.
  - destruct p; cbn in E; injection E as <-; reflexivity.
  - destruct p as [|b p]; cbn [strip_prefix] in E; [discriminate E|]. destruct (String.eqb_spec a b) as [->|]; [|discriminate E].
    rewrite (IH p r E). reflexivity.
Qed.
Lemma target_app I O r : target_of I O (I ++ r) = Some (O ++ r).
Proof. unfold target_of. rewrite strip_prefix_app. reflexivity. Qed.
Lemma target_some I O p t : target_of I O p = Some t -> exists r, p = I ++ r /\ t = O ++ r.
Proof.
  unfold target_of. destruct (strip_prefix p I) as [r|] eqn:E; [|discriminate]. intros K. injection K as <-.
  exists r. split; [exact (strip_prefix_some _ _ _ E)|reflexivity].
Qed.

(** ** Finding files *)
Lemma tree_rec_ind (P : tree -> Prop) : P Leaf -> P (Folder None) ->
  (forall es, (forall n t, In (Some (n, t)) es -> P t) -> P (Folder (Some es))) -> forall t, P t.
Proof.
  intros HL HN HF. fix IH 1. intros [|[es|]]; [exact HL| |exact HN]. apply HF.
  revert es. fix IHl 1. intros [|[[m s]|] es] n t K; [destruct K| |].
  - destruct K as [K|K]; [|exact (IHl es n t K)]. assert (E : s = t) by congruence. rewrite <- E. exact (IH s).
  - destruct K as [K|K]; [discriminate K|]. exact (IHl es n t K).
Qed.
Lemma found_visible : forall t dir p, In p (find_all_files dir t) <-> exists r, p = dir ++ r /\ visible t r.
Proof.
  induction t as [| |es IH] using tree_rec_ind; intros dir p.
  - split; [intros []|intros (r & _ & V); inversion V].
  - split; [intros []|intros (r & _ & V); inversion V].
  - cbn [find_all_files]. rewrite in_flat_map. split.
    + intros (e & He & Hp). destruct e as [[n sub]|]; [|destruct Hp]. destruct sub as [|o].
      * destruct Hp as [<-|[]]. exists [n]. split; [reflexivity|]. apply visible_file. exact He.
      * apply (IH n _ He) in Hp. destruct Hp as (r & -> & V). exists (n :: r). rewrite <- app_assoc. split; [reflexivity|]. exact (visible_below _ _ _ _ He V).
    + intros (r & -> & V). inversion V as [? n He|? n sub r1 He V1]; subst.
      * exists (Some (n, Leaf)). split; [exact He|]. left. reflexivity.
      * exists (Some (n, sub)). split; [exact He|]. destruct sub as [|o]; [inversion V1|].
        apply (IH n _ He). exists r1. rewrite <- app_assoc. split; [reflexivity|exact V1].
Qed.
Lemma visible_names : forall t r, real_tree t -> visible t r -> r <> [] /\ Forall file_name r.
Proof.
  intros t r R V. revert R. induction V as [es n He|es n sub r He V IH]; intros R; inversion R as [| |? ND FN RT]; subst.
  - split; [discriminate|]. constructor; [|constructor]. rewrite Forall_forall in FN. apply FN. apply in_flat_map. exists (Some (n, Leaf)). split; [exact He|left; reflexivity].
  - split; [discriminate|]. constructor; [|apply IH; exact (RT _ _ He)]. rewrite Forall_forall in FN. apply FN. apply in_flat_map. exists (Some (n, sub)). split; [exact He|left; reflexivity].
Qed.
Lemma found_nodup : forall t dir, real_tree t -> NoDup (find_all_files dir t).
Proof.
  induction t as [| |es IH] using tree_rec_ind; intros dir R; [constructor|constructor|].
  inversion R as [| |? ND FN RT]; subst. clear R FN. cbn [find_all_files].
  induction es as [|e es IHes]; [constructor|]. cbn [flat_map].
  assert (Tail : NoDup (flat_map (fun e => match e with None => [] | Some (name, Leaf) => [dir ++ [name]] | Some (name, sub) => find_all_files (dir ++ [name]) sub end) es)).
  { apply IHes.
    - intros n t K. apply (IH n t). right. exact K.
    - destruct e as [[n t]|]; cbn [entry_names flat_map app] in ND; [inversion ND; assumption|exact ND].
    - intros n t K. apply (RT n t). right. exact K. }
  destruct e as [[n t]|]; [|exact Tail].
  assert (Fresh : ~ In n (entry_names es)) by (cbn [entry_names flat_map app] in ND; inversion ND; assumption).
  assert (Head : forall p, In p (match t with Leaf => [dir ++ [n]] | _ => find_all_files (dir ++ [n]) t end) -> exists r, p = dir ++ n :: r).
  { intros p Hp. destruct t as [|o]; [destruct Hp as [<-|[]]; exists []; reflexivity|]. apply found_visible in Hp.
    destruct Hp as (r & -> & _). exists r. rewrite <- app_assoc. reflexivity. }
  assert (HeadND : NoDup (match t with Leaf => [dir ++ [n]] | _ => find_all_files (dir ++ [n]) t end)).
  { destruct t as [|o]; [repeat constructor; intros []|]. apply (IH n (Folder o)); [left; reflexivity|]. apply (RT n). left. reflexivity. }
  assert (Out : forall p, In p (flat_map (fun e => match e with None => [] | Some (name, Leaf) => [dir ++ [name]] | Some (name, sub) => find_all_files (dir ++ [name]) sub end) es) ->
    exists m r, p = dir ++ m :: r /\ In m (entry_names es)).
  { intros p Hp. apply in_flat_map in Hp. destruct Hp as ([[m sub]|] & He & Hp); [|destruct Hp]. exists m.
    assert (M : In m (entry_names es)) by (apply in_flat_map; exists (Some (m, sub)); split; [exact He|left; reflexivity]).
    destruct sub as [|o]; [destruct Hp as [<-|[]]; exists []; split; [reflexivity|exact M]|].
    apply found_visible in Hp. destruct Hp as (r & -> & _). exists r. rewrite <- app_assoc. split; [reflexivity|exact M]. }
  apply nodup_app; [exact HeadND|exact Tail|].
  intros p Hp Hq. apply Head in Hp. destruct Hp as (r & ->). apply Out in Hq. destruct Hq as (m & r1 & E & M).
  apply app_inv_head in E. injection E as E1 E2. subst m. exact (Fresh M).
Qed.
Lemma found_below t dir : real_tree t -> Forall file_name dir -> files_below dir (find_all_files dir t).
Proof.
  intros R D. split; [exact (found_nodup _ _ R)|]. apply Forall_forall. intros p Hp. apply found_visible in Hp.
  destruct Hp as (r & -> & V). destruct (visible_names _ _ R V) as (N & F). exists r. split; [reflexivity|]. split; [exact N|].
  apply Forall_app. split; [exact D|exact F].
Qed.

(** ** Runs *)
Lemma sum_cons a l : sum (a :: l) = a + sum l.
Proof. reflexivity. Qed.
Lemma sum_app l1 l2 : sum (l1 ++ l2) = sum l1 + sum l2.
Proof. induction l1 as [|a l1 IH]; [reflexivity|]. cbn [app]. rewrite !sum_cons, IH. lia. Qed.
Lemma update_same fs q d : update fs q d q = d.
Proof. unfold update. rewrite String.eqb_refl. reflexivity. Qed.
Lemma update_other fs q d q1 : q1 <> q -> update fs q d q1 = fs q1.
Proof. intros N. unfold update. destruct (String.eqb_spec q1 q); [contradiction|reflexivity]. Qed.

Section Run.
Context {B W : Type}.
Variable utf8 : string -> bool.
Variable cmd : command B.
Variable handlers : list (handler B W).
Variables I O : components.
Notation step := (step utf8 cmd handlers I O).
Notation run := (run utf8 cmd handlers I O).
Notation reachable := (reachable utf8 cmd handlers I O).
Notation task_step := (task_step utf8 cmd handlers).

Lemma task_other p i o partial fs ph fs1 ph1 : task_step p i o partial fs ph fs1 ph1 -> forall q, q <> o -> fs1 q = fs q.
Proof. intros S q N. destruct S; try reflexivity; apply update_other; exact N. Qed.

Lemma run_entries n entries fs s : run n (start entries fs) s -> map fst (s_tasks s) = entries.
Proof.
  intros R. remember (start entries fs) as s0 eqn:E. induction R as [s|n s s1 partial s2 R IH S].
  - subst s. unfold start. cbn [s_tasks]. rewrite map_map. apply map_id.
  - specialize (IH E). destruct S; cbn [s_tasks] in *; rewrite map_app in *; cbn [map fst] in *; exact IH.
Qed.
Lemma run_other n entries fs s : run n (start entries fs) s ->
  forall q, (forall p t, In p entries -> target_of I O p = Some t -> q <> render t) -> s_files s q = fs q.
Proof.
  intros R q N. remember (start entries fs) as s0 eqn:E. induction R as [s|n s s1 partial s2 R IH S].
  - subst s. reflexivity.
  - specialize (IH E). pose proof R as R0. rewrite E in R0. pose proof (run_entries _ _ _ _ R0) as Es. rewrite <- IH. clear IH R R0 E.
    destruct S as [partial fs1 fs2 pre p ph ph1 post total t T S| |]; [|reflexivity|reflexivity]. cbn [s_files].
    apply (task_other _ _ _ _ _ _ _ _ S). cbn [s_tasks] in Es. apply (N p t); [|exact T]. rewrite <- Es, map_app. apply in_or_app. right. left. reflexivity.
Qed.

Section Apart.
Variables (entries : list components) (before : files).
Hypothesis Below : files_below I entries.
Hypothesis Names : Forall file_name O.
(** no output is an input *)
Hypothesis Separate : forall p q, In p entries -> In q entries -> target_of I O p <> Some q.

Let good_target p t : In p entries -> target_of I O p = Some t -> Forall file_name t.
Proof.
  intros Hp T. destruct Below as (_ & F). rewrite Forall_forall in F. destruct (F p Hp) as (r & -> & _ & Fp).
  rewrite target_app in T. injection T as <-. apply Forall_app. split; [exact Names|]. apply Forall_app in Fp. tauto.
Qed.
Let good_entry p : In p entries -> Forall file_name p.
Proof. intros Hp. destruct Below as (_ & F). rewrite Forall_forall in F. destruct (F p Hp) as (r & _ & _ & Fp). exact Fp. Qed.
Let not_input p q t : In p entries -> In q entries -> target_of I O q = Some t -> render p <> render t.
Proof.
  intros Hp Hq T K. apply (Separate q p Hq Hp). rewrite T. f_equal. symmetry.
  exact (render_inj _ _ (good_entry p Hp) (good_target q t Hq T) K).
Qed.
Let targets_differ p q t u : In p entries -> In q entries -> target_of I O p = Some t -> target_of I O q = Some u -> p <> q -> render t <> render u.
Proof.
  intros Hp Hq T U N K. apply N. pose proof (render_inj _ _ (good_target p t Hp T) (good_target q u Hq U) K) as E. subst u.
  destruct (target_some _ _ _ _ T) as (r & -> & E1). destruct (target_some _ _ _ _ U) as (r1 & -> & E2). subst t.
  apply app_inv_head in E2. subst r1. reflexivity.
Qed.

Lemma story_frame now now1 p i o ph : (forall q, q = o -> now1 q = now q) ->
  story utf8 cmd handlers before now p i o ph -> story utf8 cmd handlers before now1 p i o ph.
Proof. intros E. specialize (E o eq_refl). unfold story. rewrite E. exact (fun H => H). Qed.

Lemma story_step p t partial now ph now1 ph1 : render p <> render t ->
  now (render p) = before (render p) ->
  task_step p (render p) (render t) partial now ph now1 ph1 ->
  story utf8 cmd handlers before now p (render p) (render t) ph -> story utf8 cmd handlers before now1 p (render p) (render t) ph1.
Proof.
  intros Alias Same S St.
  destruct S as [fs|fs|fs x F|fs|fs n|fs n x F|fs n x h rest w w1 F A|fs n x h rest w w1 F A|fs n x|fs n x h rest w why F A|fs n x h rest w why F A
    |fs n x h|fs n x h d|fs n x h d L|fs n x h|fs n x h d N F L|fs n x h N|fs n x h N
    |fs n x h d now now1 F G L|fs n x h d now w y w1 F G A|fs n x h d now w e y w1 F G A|fs n x h d now w why F G A|fs n x h d now w why F G A
    |fs ph x M N|fs n x h d now N];
    unfold story in St |- *; rewrite ?update_same.
  - exact St.
  - exact St.
  - split; [exact St|]. right. exists x. split; [congruence|reflexivity].
  - split; [exact St|]. left. reflexivity.
  - exact Logic.I.
  - destruct St as (E & Sz). split; [exact E|]. split; [exact Sz|]. split; [congruence|]. exists []. split; [reflexivity|constructor].
  - destruct St as (E & Sz & Bx & earlier & Eh & D). split; [exact E|]. split; [exact Sz|]. split; [exact Bx|]. exists (earlier ++ [h]).
    rewrite <- app_assoc. split; [exact Eh|]. apply Forall_app. split; [exact D|]. constructor; [exists w, w1; exact A|constructor].
  - destruct St as (E & Sz & Bx & earlier & Eh & D). split; [exact E|]. split; [exact Sz|]. split; [exact Bx|]. exists earlier, rest.
    split; [exact Eh|]. split; [exact D|]. exists w, w1. exact A.
  - destruct St as (E & Sz & Bx & earlier & Eh & D). exists x. split; [exact Bx|]. left. rewrite app_nil_r in Eh. subst earlier. repeat split; assumption.
  - destruct St as (E & Sz & Bx & earlier & Eh & D). exists x. split; [exact Bx|]. exists h, w, why. split; [rewrite Eh; apply in_or_app; right; left; reflexivity|].
    left. exact A.
  - destruct St as (E & Sz & Bx & earlier & Eh & D). exists x. split; [exact Bx|]. exists h, w, why. split; [rewrite Eh; apply in_or_app; right; left; reflexivity|].
    left. exact A.
  - exact Logic.I.
  - exact Logic.I.
  - destruct St as (E & Sz & Bx & Fa). split; [exact Sz|]. split; [exact Bx|]. split; [exact Fa|]. exists d. split; [reflexivity|exact L].
  - exact Logic.I.
  - destruct St as (Sz & Bx & Fa & d1 & E & L1). split; [exact Sz|]. split; [exact Bx|]. split; [exact Fa|]. split; [exact L|]. split; [exact F|exact L].
  - contradiction.
  - exfalso. destruct St as (Sz & Bx & Fa & d1 & E & L1). exact (N d1 E L1).
  - destruct St as (Sz & Bx & Fa & Ld & E & L1). split; [exact Sz|]. split; [exact Bx|]. split; [exact Fa|]. split; [exact Ld|]. split; [reflexivity|congruence].
  - destruct St as (Sz & Bx & Fa & Ld & E & L1). split; [exact Sz|]. exists x, h, d, w, y, w1. split; [exact Bx|]. split; [exact Fa|]. split; [exact Ld|]. split; [exact A|reflexivity].
  - destruct St as (Sz & Bx & Fa & Ld & E & L1). exists x. split; [exact Bx|]. right. exists h, d, w, y, w1. split; [exact Fa|]. split; [exact Ld|]. split; [exact A|reflexivity].
  - destruct St as (Sz & Bx & (e1 & l1 & Eh & _) & Ld & E & L1). exists x. split; [exact Bx|]. exists h, w, why. split; [rewrite Eh; apply in_or_app; right; left; reflexivity|].
    right. exists d. split; [exact Ld|exact A].
  - destruct St as (Sz & Bx & (e1 & l1 & Eh & _) & Ld & E & L1). exists x. split; [exact Bx|]. exists h, w, why. split; [rewrite Eh; apply in_or_app; right; left; reflexivity|].
    right. exists d. split; [exact Ld|exact A].
  - exfalso. apply N. rewrite Same. destruct ph; try discriminate M; injection M as <-; intuition.
  - exfalso. destruct St as (Sz & Bx & Fa & Ld & E & L1). exact (N E).
Qed.

Lemma every_state n s : run n (start entries before) s ->
  (forall p, In p entries -> s_files s (render p) = before (render p)) /\
  Forall (fun k => exists t, target_of I O (fst k) = Some t /\ story utf8 cmd handlers before (s_files s) (fst k) (render (fst k)) (render t) (snd k)) (s_tasks s) /\
  s_total s = sum (map (fun k => counted (snd k)) (s_tasks s)) mod 2 ^ 64.
Proof.
  intros R. split; [|split].
  - intros p Hp. apply (run_other _ _ _ _ R). intros q t Hq T. exact (not_input p q t Hp Hq T).
  - remember (start entries before) as s0 eqn:E0. induction R as [s|n s s1 partial s2 R IH S].
    + subst s. unfold start. cbn [s_tasks s_files]. apply Forall_forall. intros [p ph] K. apply in_map_iff in K. destruct K as (p1 & K & Hp).
      injection K as <- <-. destruct Below as (_ & F). rewrite Forall_forall in F. destruct (F p1 Hp) as (r & Er & _ & _).
      exists (O ++ r). cbn [fst snd story]. split; [rewrite Er; apply target_app|reflexivity].
    + specialize (IH E0). pose proof R as R0. rewrite E0 in R0. pose proof (run_entries _ _ _ _ R0) as Es.
      assert (Keep : forall p, In p entries -> s_files s1 (render p) = before (render p)).
      { intros p Hp. apply (run_other _ _ _ _ R0). intros q t Hq T. exact (not_input p q t Hp Hq T). }
      clear R R0 E0.
      destruct S as [partial fs1 fs2 pre p ph ph1 post total t T S|fs1 pre p post total T|fs1 pre p k post total]; cbn [s_tasks s_files] in *.
      * assert (Hp : In p entries) by (rewrite <- Es, map_app; apply in_or_app; right; left; reflexivity).
        assert (ND : NoDup (map fst pre ++ p :: map fst post)) by (rewrite map_app in Es; cbn [map fst] in Es; rewrite Es; exact (proj1 Below)).
        apply Forall_app in IH. destruct IH as (IH1 & IH2). inversion IH2 as [|? ? IHp IH3]; subst. cbn [fst snd] in IHp.
        destruct IHp as (t1 & T1 & Sp). assert (t1 = t) by congruence. subst t1.
        assert (Others : forall k, In k pre \/ In k post -> (exists u, target_of I O (fst k) = Some u /\ story utf8 cmd handlers before fs1 (fst k) (render (fst k)) (render u) (snd k)) ->
          exists u, target_of I O (fst k) = Some u /\ story utf8 cmd handlers before fs2 (fst k) (render (fst k)) (render u) (snd k)).
        { intros k Hk (u & U & Sk). exists u. split; [exact U|]. refine (story_frame _ _ _ _ _ _ _ Sk). intros q ->.
          apply (task_other _ _ _ _ _ _ _ _ S). apply (targets_differ (fst k) p u t); [|exact Hp|exact U|exact T|].
          - rewrite map_app. cbn [map fst]. destruct Hk as [Hk|Hk]; apply in_or_app; [left|right; right]; apply in_map; exact Hk.
          - intros K. apply NoDup_remove_2 in ND. apply ND. rewrite <- K. destruct Hk as [Hk|Hk]; apply in_or_app; [left|right]; apply in_map; exact Hk. }
        apply Forall_app. split; [|constructor].
        -- rewrite Forall_forall in IH1 |- *. intros k Hk. apply Others; [left; exact Hk|exact (IH1 k Hk)].
        -- cbn [fst snd]. exists t. split; [exact T|]. refine (story_step _ _ _ _ _ _ _ _ _ S Sp); [exact (not_input p p t Hp Hp T)|exact (Keep p Hp)].
        -- rewrite Forall_forall in IH3 |- *. intros k Hk. apply Others; [right; exact Hk|exact (IH3 k Hk)].
      * exfalso. apply Forall_app in IH. destruct IH as (_ & IH). inversion IH as [|? ? (u & U & _) _]; subst. cbn [fst] in U. congruence.
      * apply Forall_app in IH. destruct IH as (IH1 & IH2). inversion IH2 as [|? ? IHp IH3]; subst. apply Forall_app. split; [exact IH1|]. constructor; [exact IHp|exact IH3].
  - remember (start entries before) as s0 eqn:E0. induction R as [s|n s s1 partial s2 R IH S].
    + subst s. unfold start. cbn [s_tasks s_total]. rewrite map_map. cbn [snd counted].
      assert (Z0 : sum (map (fun _ : components => 0) entries) = 0) by (clear; induction entries as [|a l IHl]; [reflexivity|]; cbn [map]; rewrite sum_cons, IHl; reflexivity).
      rewrite Z0. reflexivity.
    + specialize (IH E0).
      destruct S as [partial fs1 fs2 pre p ph ph1 post total t T S|fs1 pre p post total T|fs1 pre p k post total]; cbn [s_tasks s_total] in *;
        rewrite map_app, sum_app in *; cbn [map snd] in *; rewrite sum_cons in *.
      * assert (C : counted ph1 = counted ph) by (destruct S as [| | | | | | | | | | | | | | | | | | | | | | | fs ph x M N|]; try reflexivity; destruct ph; try discriminate M; reflexivity). rewrite C. exact IH.
      * exact IH.
      * cbn [counted] in *. rewrite IH, Z.add_mod_idemp_l by lia. f_equal. lia.
Qed.
End Apart.
End Run.

(** ** Extensions *)
Lemma lower_char_letter : forall a, lower_char a = lower_letter a.
Proof. intros [[] [] [] [] [] [] [] []]; reflexivity. Qed.
Lemma to_lowercase_lower : forall s, to_lowercase s = lower s.
Proof. induction s as [|a s IH]; [reflexivity|]. cbn [to_lowercase lower]. rewrite lower_char_letter, IH. reflexivity. Qed.
Lemma no_dot_none : forall s, no_dot s -> after_last_dot s = None.
Proof.
  induction s as [|a s IH]; intros H; [reflexivity|]. destruct H as [H1 H2]. cbn [after_last_dot]. rewrite (IH H2).
  destruct (Ascii.eqb a ".") eqn:E; [apply Ascii.eqb_eq in E; contradiction|reflexivity].
Qed.
Lemma last_dot : forall s e, no_dot e -> after_last_dot (s ++ String "." e) = Some e.
Proof.
  induction s as [|a s IH]; intros e H; cbn [String.append after_last_dot]; [rewrite (no_dot_none e H); reflexivity|]. rewrite (IH e H). reflexivity.
Qed.
Theorem extensions : forall (utf8 : string -> bool) (dir : components) (first : ascii),
  (forall stem e, no_dot e -> utf8 e = true ->
     extract_lowercase_extension utf8 (dir ++ [String first stem ++ String "." e]%string) = Some (lower e)) /\
  (forall stem e, no_dot e -> utf8 e = false ->
     extract_lowercase_extension utf8 (dir ++ [String first stem ++ String "." e]%string) = None) /\
  (forall rest, no_dot rest -> extract_lowercase_extension utf8 (dir ++ [String first rest]) = None).
Proof.
  intros utf8 dir a. unfold extract_lowercase_extension. split; [|split].
  - intros stem e H U. rewrite rev_app_distr. cbn [rev app String.append name_extension]. rewrite (last_dot stem e H), U, to_lowercase_lower. reflexivity.
  - intros stem e H U. rewrite rev_app_distr. cbn [rev app String.append name_extension]. rewrite (last_dot stem e H), U. reflexivity.
  - intros rest H. rewrite rev_app_distr. cbn [rev app name_extension]. rewrite (no_dot_none rest H). reflexivity.
Qed.
