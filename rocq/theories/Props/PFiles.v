(** C43: the file functions. *)
From Verif Require Import Base.Bytes Base.Res Model.Kernel Model.Transform Model.Auto Model.Builders Model.Bundle Model.Dds Model.Handlers.
From Verif Require Import Spec.Files Spec.Dds Spec.Handlers Proofs.HandlersFacts Proofs.FilesMore Props.PDds Props.PHandlers.

(** Calls in any number and any order, with any handlers, whatever they return
    and whatever goes wrong with the files in between: a file that none of them
    names as its output is as it was. So the input of a call is never changed. *)
Theorem C43_other_files_untouched : forall (B W : Type) (ext : path -> option string) (calls : list (file_call B W)) (fs fs' : files) (w w' : W),
  run_calls ext calls fs w = Ok (fs', w') -> forall p, (forall k, In k calls -> p <> output_of k) -> fs' p = fs p.
Proof. intros B W ext calls fs fs' w w'. exact (calls_other ext calls fs w fs' w'). Qed.
Print Assumptions C43_other_files_untouched.

(** A handler [u] that undoes [h] on slices undoes it on files: transform one
    file into a second, do what you like except to the second, and untransform
    that into a third. *)
Theorem C43_file_round_trip : forall (B W : Type) (o1 o2 : io) (h u : handler B W) (p1 p2 p3 : path) (b : B) (fs fs1 fs2 : files) (x : list byte) (w w1 w2 : W),
  undoes u h x -> fs p1 = Some x -> p2 <> p3 -> io_works o2 p2 p3 ->
  transform_file_with_handler o1 h p1 p2 b fs w = Ok (ROk tt, fs1, w1) -> fs2 p2 = fs1 p2 ->
  exists fs3 w3, untransform_file_with_handler o2 u p2 p3 fs2 w2 = Ok (ROk tt, fs3, w3) /\ fs3 p3 = Some x.
Proof. exact (@file_round_trip). Qed.
Print Assumptions C43_file_round_trip.

(** The DDS handlers of any two machines are such a pair, *)
Theorem C43_dds_undoes : forall (St Er : Type) (show1 show2 : Er -> string) (c1 c2 : cfg) (v1 v2 : env) (x : list byte),
  supported c1 -> supported c2 -> 2 ^ 32 - 1 <= usize_max v1 -> zlen x <= usize_max v2 ->
  (c_debug c1 = true \/ c_debug c2 = true -> levels_fit x /\ forall i, parse_dds (c_debug c1) x = Ok (Some i) -> 0 < i_data_length i) ->
  undoes (dds_handler (St := St) show2 c2 v2) (dds_handler show1 c1 v1) x.
Proof. exact (@dds_undoes). Qed.
Print Assumptions C43_dds_undoes.

(** and choosing among several handlers finds them again. *)
Theorem C43_dds_multiple_handlers_round_trip : forall (St Er : Type) (ext : path -> option string) (o1 o2 : io) (show1 show2 : Er -> string) (c1 c2 : cfg) (v1 v2 : env)
    (hs pre post : list (handler (bundle St Er) St)) (p1 p2 p3 : path) (b : bundle St Er) (fs fs1 fs2 : files) (x : list byte) (w w1 w2 w3 : St),
  supported c1 -> supported c2 -> 2 ^ 32 - 1 <= usize_max v1 -> zlen x <= usize_max v2 ->
  (c_debug c1 = true \/ c_debug c2 = true -> levels_fit x /\ forall i, parse_dds (c_debug c1) x = Ok (Some i) -> 0 < i_data_length i) ->
  fs p1 = Some x -> p2 <> p3 -> io_works o2 p2 p3 -> (ext p2 = None \/ ext p2 = Some "dds"%string) ->
  transform_file_with_multiple_handlers ext o1 hs p1 p2 b fs w = Ok (ROk (dds_handler (St := St) show1 c1 v1), fs1, w1) ->
  fs2 p2 = fs1 p2 ->
  (forall y, fs1 p2 = Some y -> all_decline (fun h => h_can_handle_untransform h y (ext p2)) pre w2 w3) ->
  exists (fs3 : files) w4,
    untransform_file_with_multiple_handlers ext o2 (pre ++ dds_handler show2 c2 v2 :: post) p2 p3 fs2 w2 = Ok (ROk (dds_handler show2 c2 v2), fs3, w4) /\
    fs3 p3 = Some x.
Proof. exact (@dds_files_round). Qed.
Print Assumptions C43_dds_multiple_handlers_round_trip.

(** The output has the size of the input. *)
Theorem C43_same_size : forall (B W : Type) (o : io) (h : handler B W) (p1 p2 : path) (b : B) (fs fs1 : files) (x : list byte) (w w1 : W),
  keeps_length h x -> fs p1 = Some x ->
  transform_file_with_handler o h p1 p2 b fs w = Ok (ROk tt, fs1, w1) \/ untransform_file_with_handler o h p1 p2 fs w = Ok (ROk tt, fs1, w1) ->
  exists y, fs1 p2 = Some y /\ zlen y = zlen x.
Proof. intros B W o h p1 p2 b fs fs1 x w w1 K F [E|E]; [exact (file_same_size _ _ _ _ _ _ _ _ _ _ K F E)|exact (file_same_size_back _ _ _ _ _ _ _ _ _ K F E)]. Qed.
Print Assumptions C43_same_size.
Theorem C43_dds_keeps_length : forall (St Er : Type) (show : Er -> string) (c : cfg) (v : env) (x : list byte), supported c -> 2 ^ 32 + 147 <= usize_max v ->
  (c_debug c = true -> levels_fit x /\ forall i, parse_dds_ignore_magic true x = Ok (Some i) -> 0 < i_data_length i) ->
  keeps_length (dds_handler (St := St) show c v) x.
Proof. exact (@dds_keeps_length). Qed.
Print Assumptions C43_dds_keeps_length.

(** With several handlers: the first one that accepts the input and the input's
    extension does what it would do alone; *)
Theorem C43_first_handler : forall (B W : Type) (ext : path -> option string) (o : io) (pre : list (handler B W)) (h : handler B W) (post : list (handler B W))
    (p1 p2 : path) (b : B) (fs : files) (w w1 w2 : W) (x : list byte), map_input o fs p1 = ROk x ->
  all_decline (fun g => h_can_handle g x (ext p1)) pre w w1 -> h_can_handle h x (ext p1) w1 = Ok (true, w2) ->
  transform_file_with_multiple_handlers ext o (pre ++ h :: post) p1 p2 b fs w =
  match transform_file_with_handler o h p1 p2 b fs w2 with
  | Ok (ROk _, fs', w') => Ok (ROk h, fs', w')
  | Ok (RErr e, fs', w') => Ok (RErr e, fs', w')
  | Panic y => Panic y
  | Ub y => Ub y
  end.
Proof. exact (@transform_files_first). Qed.
Print Assumptions C43_first_handler.
Theorem C43_first_handler_back : forall (B W : Type) (ext : path -> option string) (o : io) (pre : list (handler B W)) (h : handler B W) (post : list (handler B W))
    (p1 p2 : path) (fs : files) (w w1 w2 : W) (x : list byte), map_input o fs p1 = ROk x ->
  all_decline (fun g => h_can_handle_untransform g x (ext p1)) pre w w1 -> h_can_handle_untransform h x (ext p1) w1 = Ok (true, w2) ->
  untransform_file_with_multiple_handlers ext o (pre ++ h :: post) p1 p2 fs w =
  match untransform_file_with_handler o h p1 p2 fs w2 with
  | Ok (ROk _, fs', w') => Ok (ROk h, fs', w')
  | Ok (RErr e, fs', w') => Ok (RErr e, fs', w')
  | Panic y => Panic y
  | Ub y => Ub y
  end.
Proof. exact (@untransform_files_first). Qed.
Print Assumptions C43_first_handler_back.

(** if none does, no file is created or changed. *)
Theorem C43_no_handler_no_file : forall (B W : Type) (ext : path -> option string) (o : io) (hs : list (handler B W)) (p1 p2 : path) (b : B) (fs : files) (w w1 : W) (x : list byte),
  map_input o fs p1 = ROk x ->
  (all_decline (fun g => h_can_handle g x (ext p1)) hs w w1 ->
   transform_file_with_multiple_handlers ext o hs p1 p2 b fs w = Ok (RErr (FTransform NoSupportedHandler), fs, w1)) /\
  (all_decline (fun g => h_can_handle_untransform g x (ext p1)) hs w w1 ->
   untransform_file_with_multiple_handlers ext o hs p1 p2 fs w = Ok (RErr (FTransform NoSupportedHandler), fs, w1)).
Proof. exact (@files_none). Qed.
Print Assumptions C43_no_handler_no_file.

(** A file transformed into a slice: only the first bytes of the slice, as many
    as the file has, are written, and they untransform to the file. *)
Theorem C43_file_to_slice_round_trip : forall (B W : Type) (o1 o2 : io) (h u : handler B W) (p : path) (b : B) (fs fs2 : files) (p2 : path)
    (x out out1 : list byte) (w w1 w2 : W) (out2 : list byte),
  undoes u h x -> fs p = Some x -> transform_file_to_slice_with_handler o1 h p out b fs w = Ok (ROk tt, out1, w1) ->
  exists y, out1 = y ++ skipn (List.length x) out /\ List.length y = List.length x /\
    (fs2 p2 = Some y -> open_ok o2 p2 = true -> map_ok o2 p2 = true -> zlen x <= zlen out2 ->
     exists w3, untransform_file_to_slice_with_handler o2 u p2 out2 fs2 w2 = Ok (ROk tt, x ++ skipn (List.length x) out2, w3)).
Proof. exact (@slice_file_round). Qed.
Print Assumptions C43_file_to_slice_round_trip.

(** Data in memory are treated like a file with these contents. The extension
    given with the data plays the part of the file's. *)
Theorem C43_from_memory : forall (B W : Type) (ext : path -> option string) (o : io) (h : handler B W) (hs : list (handler B W))
    (p p2 : path) (b : B) (fs : files) (w : W) (x : list byte), can_read o fs p x -> p <> p2 ->
  transform_slice_to_file_with_handler o h x p2 b fs w = transform_file_with_handler o h p p2 b fs w /\
  untransform_slice_to_file_with_handler o h x p2 fs w = untransform_file_with_handler o h p p2 fs w /\
  transform_slice_to_file_with_multiple_handlers o hs x p2 b (ext p) fs w = transform_file_with_multiple_handlers ext o hs p p2 b fs w /\
  untransform_slice_to_file_with_multiple_handlers o hs x p2 (ext p) fs w = untransform_file_with_multiple_handlers ext o hs p p2 fs w.
Proof. exact (@from_memory). Qed.
Print Assumptions C43_from_memory.

(** Into memory with several handlers: the first that accepts does what it would
    do alone; *)
Theorem C43_to_memory_first_handler : forall (B W : Type) (ext : path -> option string) (o : io) (pre : list (handler B W)) (h : handler B W) (post : list (handler B W))
    (p : path) (b : B) (fs : files) (out : list byte) (w w1 w2 : W) (x : list byte), can_read o fs p x -> zlen x <= zlen out ->
  (all_decline (fun g => h_can_handle g x (ext p)) pre w w1 -> h_can_handle h x (ext p) w1 = Ok (true, w2) ->
   transform_file_to_slice_with_multiple_handlers ext o (pre ++ h :: post) p out b fs w =
   chosen h (transform_file_to_slice_with_handler o h p out b fs w2)) /\
  (all_decline (fun g => h_can_handle_untransform g x (ext p)) pre w w1 -> h_can_handle_untransform h x (ext p) w1 = Ok (true, w2) ->
   untransform_file_to_slice_with_multiple_handlers ext o (pre ++ h :: post) p out fs w =
   chosen h (untransform_file_to_slice_with_handler o h p out fs w2)).
Proof. exact (@to_memory_first). Qed.
Print Assumptions C43_to_memory_first_handler.

(** if none does, the buffer is as it was. *)
Theorem C43_to_memory_no_handler : forall (B W : Type) (ext : path -> option string) (o : io) (hs : list (handler B W)) (p : path) (b : B) (fs : files) (out : list byte)
    (w w1 : W) (x : list byte), can_read o fs p x -> zlen x <= zlen out ->
  (all_decline (fun g => h_can_handle g x (ext p)) hs w w1 ->
   transform_file_to_slice_with_multiple_handlers ext o hs p out b fs w = Ok (RErr (FTransform NoSupportedHandler), out, w1)) /\
  (all_decline (fun g => h_can_handle_untransform g x (ext p)) hs w w1 ->
   untransform_file_to_slice_with_multiple_handlers ext o hs p out fs w = Ok (RErr (FTransform NoSupportedHandler), out, w1)).
Proof. exact (@to_memory_none). Qed.
Print Assumptions C43_to_memory_no_handler.

(** A buffer shorter than the file is refused before any handler is asked. *)
Theorem C43_to_memory_short : forall (B W : Type) (ext : path -> option string) (o : io) (h : handler B W) (hs : list (handler B W)) (p : path) (b : B) (fs : files)
    (out : list byte) (w : W) (x : list byte), can_read o fs p x -> zlen out < zlen x ->
  let e := FTransform (EFormatHandler (FhOutputBufferTooSmall (zlen x) (zlen out))) in
  transform_file_to_slice_with_handler o h p out b fs w = Ok (RErr e, out, w) /\
  untransform_file_to_slice_with_handler o h p out fs w = Ok (RErr e, out, w) /\
  transform_file_to_slice_with_multiple_handlers ext o hs p out b fs w = Ok (RErr e, out, w) /\
  untransform_file_to_slice_with_multiple_handlers ext o hs p out fs w = Ok (RErr e, out, w).
Proof. exact (@to_memory_short). Qed.
Print Assumptions C43_to_memory_short.

(** A file that cannot be read is an error; no handler is asked and nothing is
    created or written. *)
Theorem C43_no_input : forall (B W : Type) (ext : path -> option string) (o : io) (h : handler B W) (hs : list (handler B W)) (p p2 : path) (b : B) (fs : files)
    (out : list byte) (w : W), cannot_read o fs p ->
  transform_file_with_handler o h p p2 b fs w = Ok (RErr FIo, fs, w) /\
  untransform_file_with_handler o h p p2 fs w = Ok (RErr FIo, fs, w) /\
  transform_file_with_multiple_handlers ext o hs p p2 b fs w = Ok (RErr FIo, fs, w) /\
  untransform_file_with_multiple_handlers ext o hs p p2 fs w = Ok (RErr FIo, fs, w) /\
  transform_file_to_slice_with_handler o h p out b fs w = Ok (RErr FIo, out, w) /\
  untransform_file_to_slice_with_handler o h p out fs w = Ok (RErr FIo, out, w) /\
  transform_file_to_slice_with_multiple_handlers ext o hs p out b fs w = Ok (RErr FIo, out, w) /\
  untransform_file_to_slice_with_multiple_handlers ext o hs p out fs w = Ok (RErr FIo, out, w).
Proof. exact (@no_input). Qed.
Print Assumptions C43_no_input.

(** Two files and a disk that works. The second call fails and, unlike the
    functions with several handlers, leaves an output behind. *)
Definition disk : io := Io (fun _ => true) (fun _ => true) (fun _ => true) (fun _ _ i => lo8 i).
Definition dir : files := fun p => if String.eqb p "a.dds" then Some file1 else if String.eqb p "b.txt" then Some (numbers 200) else None.
Definition dds_ext (p : path) : option string := if String.eqb p "b.txt" then Some "txt"%string else Some "dds"%string.
Definition ok {R E W} (r : res (result R E * files * W)) : bool := match r with Ok (ROk _, _, _) => true | _ => false end.
Definition files_after {R E W} (r : res (result R E * files * W)) : files := match r with Ok (_, fs, _) => fs | _ => fun _ => None end.
Example C43_nontrivial :
  let r1 := transform_file_with_handler disk dds "a.dds" "t.dds" (manual CBc1) dir tt in
  let r2 := untransform_file_with_multiple_handlers dds_ext disk [refuses; dds] "t.dds" "c.dds" (files_after r1) tt in
  let r3 := transform_file_with_handler disk dds "b.txt" "t.dds" (manual CBc1) dir tt in
  let r4 := transform_file_with_multiple_handlers dds_ext disk [refuses; dds] "b.txt" "t.dds" (manual CBc1) dir tt in
  ok r1 = true /\ files_after r1 "t.dds" <> Some file1 /\ io_works disk "t.dds" "c.dds" /\ ok r2 = true /\ files_after r2 "c.dds" = Some file1 /\
  ok r3 = false /\ files_after r3 "t.dds" <> None /\ r4 = Ok (RErr (FTransform NoSupportedHandler), dir, tt).
Proof.
  cbv zeta. split; [vm_compute; reflexivity|]. split; [vm_compute; discriminate|]. split; [repeat split|].
  split; [vm_compute; reflexivity|]. split; [vm_compute; reflexivity|]. split; [vm_compute; reflexivity|]. split; [vm_compute; discriminate|]. vm_compute. reflexivity.
Qed.

(** The hypotheses of the theorems about memory: a readable file, a handler that
    declines before one that accepts, a buffer that is long enough, one that is
    not, and a file that is not there. *)
Example C43_memory_nontrivial :
  can_read disk dir "a.dds" file1 /\ zlen file1 <= zlen (file1 ++ numbers 5) /\
  all_decline (fun g => h_can_handle g file1 (dds_ext "a.dds")) [refuses] tt tt /\ h_can_handle dds file1 (dds_ext "a.dds") tt = Ok (true, tt) /\
  (exists y, transform_file_to_slice_with_multiple_handlers dds_ext disk [refuses; dds] "a.dds" (file1 ++ numbers 5) (manual CBc1) dir tt = Ok (ROk dds, y ++ numbers 5, tt) /\ y <> file1) /\
  zlen (numbers 5) < zlen file1 /\ cannot_read disk dir "c.dds" /\
  all_decline (fun g => h_can_handle g file1 (dds_ext "b.txt")) [refuses; dds] tt tt.
Proof.
  split; [split; [reflexivity|split; reflexivity]|]. split; [vm_compute; discriminate|]. split; [exists tt; split; reflexivity|]. split; [vm_compute; reflexivity|].
  split. { assert (E : exists y, transform_file_to_slice_with_handler disk dds "a.dds" (file1 ++ numbers 5) (manual CBc1) dir tt = Ok (ROk tt, y ++ numbers 5, tt) /\ y <> file1).
    { destruct (transform_file_to_slice_with_handler disk dds "a.dds" (file1 ++ numbers 5) (manual CBc1) dir tt) as [[[[[]|e] y] []]| |] eqn:E.
      - exists (firstn 163 y). split; [|intros Q].
        + repeat f_equal. rewrite <- (firstn_skipn 163 y) at 1. f_equal.
          assert (Q : match transform_file_to_slice_with_handler disk dds "a.dds" (file1 ++ numbers 5) (manual CBc1) dir tt with Ok (_, y, _) => skipn 163 y = numbers 5 | _ => False end) by (vm_compute; reflexivity).
          rewrite E in Q. exact Q.
        + assert (R : match transform_file_to_slice_with_handler disk dds "a.dds" (file1 ++ numbers 5) (manual CBc1) dir tt with Ok (_, y, _) => firstn 163 y <> file1 | _ => False end) by (vm_compute; discriminate).
          rewrite E in R. exact (R Q).
      - exfalso. assert (R : match transform_file_to_slice_with_handler disk dds "a.dds" (file1 ++ numbers 5) (manual CBc1) dir tt with Ok (ROk _, _, _) => True | _ => False end) by (vm_compute; exact I). rewrite E in R. exact R.
      - exfalso. assert (R : match transform_file_to_slice_with_handler disk dds "a.dds" (file1 ++ numbers 5) (manual CBc1) dir tt with Ok (ROk _, _, _) => True | _ => False end) by (vm_compute; exact I). rewrite E in R. exact R.
      - exfalso. assert (R : match transform_file_to_slice_with_handler disk dds "a.dds" (file1 ++ numbers 5) (manual CBc1) dir tt with Ok (ROk _, _, _) => True | _ => False end) by (vm_compute; exact I). rewrite E in R. exact R. }
    destruct E as (y & E & N). exists y. split; [|exact N]. change [refuses; dds] with ([refuses] ++ dds :: []).
   
    rewrite (proj1 (to_memory_first dds_ext disk [refuses] dds [] "a.dds" (manual CBc1) dir (file1 ++ numbers 5) tt tt tt file1 (conj eq_refl (conj eq_refl eq_refl)) ltac:(vm_compute; discriminate)));
      [rewrite E; reflexivity|exists tt; split; reflexivity|vm_compute; reflexivity]. }
  split; [vm_compute; reflexivity|]. split; [left; reflexivity|]. exists tt. split; [reflexivity|]. exists tt. split; [vm_compute; reflexivity|reflexivity].
Qed.
