(** Arrays of aligned allocations. *)
From Coq Require Import Permutation.
From Verif Require Import Base.Bytes Base.Res Model.Transform Model.Alloc Spec.Alloc.
Open Scope list_scope.
Open Scope Z_scope.

Section Facts.
Context {A : Type} (al : allocator A) (isize_max : Z).

Lemma drop_log : forall ps a log, exists a', drop_all (watched al) ps (a, log) = (a', log ++ map GivenBack ps).
Proof.
  induction ps as [|p ps IH]; intros a log; cbn [drop_all map]; [exists a; rewrite app_nil_r; reflexivity|].
  destruct (IH (a_free al p a) (log ++ [GivenBack p])) as [a' E]. exists a'. cbn [watched a_free fst snd]. rewrite E, <- app_assoc. reflexivity.
Qed.

Definition asks (n : Z) (ps : list Z) : list alloc_event := map (fun p => Asked n 64 (Some p)) ps.

Lemma fill_log : forall n k done a log, exists a',
  if n <=? isize_max - 63 then
    (exists ps, List.length ps = k /\ fill (watched al) isize_max n k done (a, log) = (ROk (done ++ ps), (a', log ++ asks n ps))) \/
    (exists ps, (List.length ps < k)%nat /\
      fill (watched al) isize_max n k done (a, log) =
      (RErr AllocationFailed, (a', log ++ asks n ps ++ [Asked n 64 None] ++ map GivenBack (done ++ ps))))
  else match k with
       | O => fill (watched al) isize_max n k done (a, log) = (ROk done, (a', log))
       | S _ => fill (watched al) isize_max n k done (a, log) = (RErr LayoutError, (a', log ++ map GivenBack done))
       end.
Proof.
  intros n. destruct (n <=? isize_max - 63) eqn:L.
  - induction k as [|k IH]; intros done a log.
    + exists a. left. exists []. cbn. rewrite !app_nil_r. auto.
    + cbn [fill]. unfold allocate_align_64, layout_ok. replace (64 - 1) with 63 by lia. rewrite L.
      cbn [watched a_alloc fst snd]. destruct (a_alloc al n 64 a) as [[p|] a1].
      * destruct (IH (done ++ [p]) a1 (log ++ [Asked n 64 (Some p)])) as (a' & [(ps & Hl & E)|(ps & Hl & E)]); exists a'.
        -- left. exists (p :: ps). split; [cbn; lia|]. cbn [watched a_alloc] in E. rewrite E. cbn [asks map]. rewrite <- !app_assoc. reflexivity.
        -- right. exists (p :: ps). split; [cbn; lia|]. cbn [watched a_alloc] in E. rewrite E. cbn [asks map]. rewrite <- !app_assoc. reflexivity.
      * destruct (drop_log done a1 (log ++ [Asked n 64 None])) as [a' E]. exists a'. right. exists []. split; [cbn; lia|].
        cbn [watched a_alloc] in E. cbn [asks map app]. rewrite app_nil_r. rewrite E, <- app_assoc. reflexivity.
  - intros k done a log. destruct k as [|k]; [exists a; reflexivity|].
    destruct (drop_log done a log) as [a' E]. exists a'. cbn [fill]. unfold allocate_align_64, layout_ok. replace (64 - 1) with 63 by lia. rewrite L.
    rewrite E. reflexivity.
Qed.

Theorem new_explained : forall k n a, exists a' log,
  match array_new (watched al) isize_max k n (a, []) with
  | (ROk ps, st) => st = (a', log) /\ List.length ps = k /\ log = map (fun p => Asked n 64 (Some p)) ps
  | (RErr LayoutError, st) => st = (a', log) /\ log = [] /\ isize_max - 63 < n /\ (0 < k)%nat
  | (RErr AllocationFailed, st) =>
      st = (a', log) /\ n <= isize_max - 63 /\
      exists ps, (List.length ps < k)%nat /\ log = map (fun p => Asked n 64 (Some p)) ps ++ [Asked n 64 None] ++ map GivenBack ps
  end.
Proof.
  intros k n a. unfold array_new. destruct (fill_log n k [] a []) as [a' H]. destruct (n <=? isize_max - 63) eqn:L.
  - destruct H as [(ps & Hl & E)|(ps & Hl & E)]; rewrite E; cbn [app].
    + exists a', (asks n ps). auto.
    + exists a'. eexists. split; [reflexivity|]. split; [lia|]. exists ps. auto.
  - destruct k as [|k]; rewrite H; exists a', []; cbn.
    + auto.
    + repeat split; lia.
Qed.

Theorem pointers : forall ps, get_pointer_slice ps = ps.
Proof. intros. unfold get_pointer_slice. apply map_id. Qed.
End Facts.

(** ** Nothing leaks and nothing is freed twice *)
Lemma in_use_asks : forall n ps live rest, in_use live (asks n ps ++ rest) = in_use (rev ps ++ live) rest.
Proof.
  intros n ps. induction ps as [|p ps IH]; intros live rest; [reflexivity|]. cbn [asks map app in_use rev]. fold (asks n ps). rewrite IH, <- app_assoc. reflexivity.
Qed.
Lemma fresh_asks : forall n ps live rest, fresh live (asks n ps ++ rest) -> NoDup live -> NoDup (rev ps ++ live).
Proof.
  intros n ps. induction ps as [|p ps IH]; intros live rest H D; [exact D|]. cbn [asks map app fresh rev] in *. destruct H as [H1 H2].
  rewrite <- app_assoc. cbn [app]. eapply IH; [exact H2|]. constructor; assumption.
Qed.
Lemma existsb_in : forall p l, In p l -> existsb (Z.eqb p) l = true.
Proof. intros p l H. apply existsb_exists. exists p. split; [exact H|]. apply Z.eqb_refl. Qed.
Lemma in_use_back : forall ps l2, NoDup (ps ++ l2) -> forall live, (forall x, In x live <-> In x (ps ++ l2)) -> exists l,
  in_use live (map GivenBack ps) = Some l /\ (forall x, In x l <-> In x l2).
Proof.
  induction ps as [|p ps IH]; intros l2 D live E; [exists live; auto|]. cbn [map in_use app] in *.
  rewrite existsb_in by (apply E; left; reflexivity). inversion D as [|? ? D1 D2]; subst.
  apply IH; [exact D2|]. intros x. rewrite in_app_iff. split.
  - intros H. apply in_remove in H. destruct H as [H1 H2]. apply E in H1. destruct H1 as [H1|H1]; [congruence|]. rewrite in_app_iff in H1. exact H1.
  - intros H. apply in_in_remove; [|apply E; right; rewrite in_app_iff; exact H].
    intros ->. apply D1. apply in_app_iff. exact H.
Qed.

Section Leak.
Context {A : Type} (al : allocator A) (isize_max : Z).

Theorem new_leaks_nothing : forall k n a live st e, NoDup live ->
  array_new (watched al) isize_max k n (a, []) = (RErr e, st) -> fresh live (snd st) ->
  exists l, in_use live (snd st) = Some l /\ (forall x, In x l <-> In x live).
Proof.
  intros k n a live st e D E F. destruct (new_explained al isize_max k n a) as (a' & log & H). rewrite E in H. destruct e.
  - destruct H as (-> & -> & _). exists live. cbn. split; [reflexivity|tauto].
  - destruct H as (-> & _ & ps & Hl & ->). cbn [snd] in *. fold (asks n ps) in *. rewrite in_use_asks. cbn [app in_use].
    apply fresh_asks in F; [|exact D]. apply (in_use_back ps live).
    + apply (Permutation.Permutation_NoDup (l := rev ps ++ live)); [|exact F]. apply Permutation.Permutation_app_tail. symmetry. apply Permutation.Permutation_rev.
    + intros x. rewrite !in_app_iff, <- in_rev. tauto.
Qed.

Theorem new_and_drop : forall k n a live st ps, NoDup live ->
  array_new (watched al) isize_max k n (a, []) = (ROk ps, st) -> fresh live (snd st) ->
  NoDup ps /\ (forall p, In p ps -> ~ In p live) /\
  (exists l, in_use live (snd st) = Some l /\ (forall x, In x l <-> In x ps \/ In x live)) /\
  exists l, in_use live (snd (array_drop (watched al) ps st)) = Some l /\ (forall x, In x l <-> In x live).
Proof.
  intros k n a live st ps D E F. destruct (new_explained al isize_max k n a) as (a' & log & H). rewrite E in H. destruct H as (-> & Hl & ->).
  cbn [snd] in *. fold (asks n ps) in *. assert (ND : NoDup (ps ++ live)).
  { apply (Permutation.Permutation_NoDup (l := rev ps ++ live)).
    - apply Permutation.Permutation_app_tail. symmetry. apply Permutation.Permutation_rev.
    - rewrite <- (app_nil_r (asks n ps)) in F. apply fresh_asks in F; [exact F|exact D]. }
  split; [|split; [|split]].
  - clear - ND. induction ps as [|p ps IH]; [constructor|]. cbn in ND. inversion ND; subst. constructor; [rewrite in_app_iff in *; tauto|auto].
  - clear - ND. induction ps as [|p ps IH]; intros q H; [destruct H|]. cbn in ND. inversion ND; subst. destruct H as [->|H]; [rewrite in_app_iff in *; tauto|auto].
  - exists (rev ps ++ live). split.
    + rewrite <- (app_nil_r (asks n ps)), in_use_asks. reflexivity.
    + intros x. rewrite in_app_iff, <- in_rev. tauto.
  - unfold array_drop. destruct (drop_log al ps a' (asks n ps)) as [a2 E2]. rewrite E2. cbn [snd]. rewrite in_use_asks.
    apply (in_use_back ps live ND). intros x. rewrite !in_app_iff, <- in_rev. tauto.
Qed.
End Leak.
