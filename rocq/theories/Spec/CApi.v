(** What a C caller should see, without reference to how the functions work. *)
From Verif Require Import Base.Bytes Base.Res Model.Color565 Model.Kernel Model.Transform Model.Auto Model.Builders Model.CApi Spec.Files.

Definition is_null {A} (p : option A) : bool := match p with None => true | Some _ => false end.
(** The first of some checks that fires. *)
Fixpoint first_null (checks : list (bool * Z)) : option Z :=
  match checks with
  | [] => None
  | (null, code) :: rest => if null then Some code else first_null rest
  end.
(** A pointer is valid for a length. *)
Definition valid_for (bytes : list byte) (len : Z) : Prop := 0 <= len /\ len <= zlen bytes.
(** The documented code of a transform between buffers of given lengths. *)
Definition expected_code (block input_len output_len : Z) : Z :=
  if negb (input_len mod block =? 0) then 1 else if output_len <? input_len then 2 else 0.
(** [new] is [old] up to its first [n] bytes. *)
Definition same_after (n : Z) (old new : list byte) : Prop :=
  zlen new = zlen old /\ skipn (Z.to_nat n) new = skipn (Z.to_nat n) old.
(** One of the estimator's functions returned a code other than 0. *)
Definition estimator_failed {St} (e : c_estimator St) : Prop :=
  exists st1 st2 code out, code <> 0 /\
    ((exists n, c_max_compressed_size e st1 n = (code, out, st2)) \/
     (exists d n, c_estimate_compressed_size e st1 d n = (code, out, st2))).

(** ** Histories of calls *)
Inductive c_call (St : Type) :=
| CNew | CClone (b : handle) | CFree (b : handle) | CSetMode (b : handle) (mode : stable_variant) | CSetSplit (b : handle) (split : bool) | CReset (b : handle)
| CTransform (input : option (list byte)) (input_len : Z) (output : option (list byte)) (output_len : Z) (b : handle)
| CUntransform (input : option (list byte)) (input_len : Z) (output : option (list byte)) (output_len : Z) (b : handle)
| CNewAuto (e : option (c_estimator St)) | CFreeAuto (b : handle) | CSetUseAll (b : handle) (use_all : bool)
| CAutoTransform (b : handle) (data : option (list byte)) (data_len : Z) (output : option (list byte)) (output_len : Z) (cell : option handle).
Arguments CNew {St}. Arguments CClone {St}. Arguments CFree {St}. Arguments CSetMode {St}. Arguments CSetSplit {St}. Arguments CReset {St}.
Arguments CTransform {St}. Arguments CUntransform {St}. Arguments CNewAuto {St}. Arguments CFreeAuto {St}. Arguments CSetUseAll {St}. Arguments CAutoTransform {St}.

(** What a call gave back: a handle; a code and the output bytes; or those and
    the handle variable. *)
Inductive answered_with :=
| Nothing | GaveHandle (b : handle) | GaveCode (code : error_code) | GaveBytes (code : error_code) (output : option (list byte))
| GaveBuilder (code : error_code) (output : option (list byte)) (cell : option handle).

Section Run.
Context {St : Type}.
Variables (k : codec) (c : cfg) (v : env).
Definition run_c_call (call : c_call St) (h : heap St) (st : St) : res (answered_with * heap St * St) :=
  match call with
  | CNew => let '(b, h1) := new_manual h in Ok (GaveHandle b, h1, st)
  | CClone b => do r <- clone_manual b h ;; Ok (GaveHandle (fst r), snd r, st)
  | CFree b => do h1 <- free_manual b h ;; Ok (Nothing, h1, st)
  | CSetMode b mode => do h1 <- set_decorrelation_mode b mode h ;; Ok (Nothing, h1, st)
  | CSetSplit b split => do h1 <- set_split_colour_endpoints b split h ;; Ok (Nothing, h1, st)
  | CReset b => do h1 <- reset_to_defaults b h ;; Ok (Nothing, h1, st)
  | CTransform i n o m b => do r <- manual_transform_c k c i n o m b h ;; Ok (GaveBytes (fst r) (snd r), h, st)
  | CUntransform i n o m b => do r <- manual_untransform_c k c i n o m b h ;; Ok (GaveBytes (fst r) (snd r), h, st)
  | CNewAuto e => let '(b, h1) := new_auto e h in Ok (GaveHandle b, h1, st)
  | CFreeAuto b => do h1 <- free_auto b h ;; Ok (Nothing, h1, st)
  | CSetUseAll b use_all => do r <- set_use_all_decorrelation_modes b use_all h ;; Ok (GaveCode (fst r), snd r, st)
  | CAutoTransform b d n o m cell =>
      do r <- auto_transform_c k c v b d n o m cell h st ;;
      let '(code, o1, cell1, h1, st1) := r in Ok (GaveBuilder code o1 cell1, h1, st1)
  end.

(** A program's calls and the answers to them, the most recent first. *)
Definition history := list (c_call St * answered_with).
(** [ran past h st]: a program that made these calls, starting with no builders,
    has the heap [h] and the estimator context [st]. *)
Inductive ran : history -> heap St -> St -> Prop :=
| ran_start : forall st, ran [] (Heap [] []) st
| ran_call : forall past h st call a h1 st1, ran past h st -> run_c_call call h st = Ok (a, h1, st1) -> ran ((call, a) :: past) h1 st1.

(** The decorrelation mode in force for a builder: the last one set since the
    last reset or its creation, else Variant1; a clone starts with what its
    original had at that time, and a builder returned by an automatic transform
    with what [found] says was found for it. *)
Variable found : nat -> settings.
Definition is_h (b : handle) (n : nat) : bool := match b with Some b => Nat.eqb b n | None => false end.
Fixpoint mode_of (past : history) (n : nat) : stable_variant :=
  match past with
  | [] => Variant1
  | (call, a) :: past =>
      match call, a with
      | CNew, GaveHandle b => if is_h b n then Variant1 else mode_of past n
      | CClone (Some original), GaveHandle b => if is_h b n then mode_of past original else mode_of past n
      | CAutoTransform _ _ _ _ _ _, GaveBuilder Success _ (Some b) => if is_h b n then from_internal_variant (decorrelation_mode (found n)) else mode_of past n
      | CSetMode b mode, _ => if is_h b n then mode else mode_of past n
      | CReset b, _ => if is_h b n then Variant1 else mode_of past n
      | _, _ => mode_of past n
      end
  end.
(** The same for the endpoint splitting option. *)
Fixpoint split_of (past : history) (n : nat) : bool :=
  match past with
  | [] => true
  | (call, a) :: past =>
      match call, a with
      | CNew, GaveHandle b => if is_h b n then true else split_of past n
      | CClone (Some original), GaveHandle b => if is_h b n then split_of past original else split_of past n
      | CAutoTransform _ _ _ _ _ _, GaveBuilder Success _ (Some b) => if is_h b n then split_colour_endpoints (found n) else split_of past n
      | CSetSplit b split, _ => if is_h b n then split else split_of past n
      | CReset b, _ => if is_h b n then true else split_of past n
      | _, _ => split_of past n
      end
  end.
Definition settings_of (past : history) (n : nat) : settings := Settings (to_internal_variant (mode_of past n)) (split_of past n).
(** [found] is right: each automatic transform wrote its data in the layout of
    the settings found. *)
Definition found_right (past : history) : Prop :=
  forall b d n o m cell o1 r, In (CAutoTransform b (Some d) n (Some o) m cell, GaveBuilder Success (Some o1) (Some (Some r))) past ->
    o1 = texture_layout k (found r) (firstn (Z.to_nat n) d) ++ skipn (Z.to_nat n) o.

(** A manual builder the program holds: returned by some call, not freed since. *)
Fixpoint holds (past : history) (n : nat) : bool :=
  match past with
  | [] => false
  | (call, a) :: past =>
      match call, a with
      | CNew, GaveHandle b => is_h b n || holds past n
      | CClone _, GaveHandle b => is_h b n || holds past n
      | CAutoTransform _ _ _ _ _ _, GaveBuilder Success _ (Some b) => is_h b n || holds past n
      | CFree b, _ => negb (is_h b n) && holds past n
      | _, _ => holds past n
      end
  end.
(** The same for automatic builders, and their options. *)
Fixpoint holds_auto (past : history) (n : nat) : bool :=
  match past with
  | [] => false
  | (call, a) :: past =>
      match call, a with
      | CNewAuto _, GaveHandle b => is_h b n || holds_auto past n
      | CFreeAuto b, _ => negb (is_h b n) && holds_auto past n
      | _, _ => holds_auto past n
      end
  end.
Fixpoint use_all_of (past : history) (n : nat) : bool :=
  match past with
  | [] => false
  | (call, a) :: past =>
      match call, a with
      | CNewAuto _, GaveHandle b => if is_h b n then false else use_all_of past n
      | CSetUseAll b use_all, _ => if is_h b n then use_all else use_all_of past n
      | _, _ => use_all_of past n
      end
  end.
Fixpoint estimator_of (past : history) (n : nat) : option (c_estimator St) :=
  match past with
  | [] => None
  | (call, a) :: past =>
      match call, a with
      | CNewAuto e, GaveHandle b => if is_h b n then e else estimator_of past n
      | _, _ => estimator_of past n
      end
  end.

(** A call that keeps the rules: handles are null or held, buffers are as long
    as said. *)
Definition handle_ok (held : nat -> bool) (b : handle) : Prop := match b with None => True | Some n => held n = true end.
Definition buffer_ok (p : option (list byte)) (len : Z) : Prop := match p with None => True | Some bytes => valid_for bytes len end.
Definition keeps_rules (past : history) (call : c_call St) : Prop :=
  match call with
  | CNew | CNewAuto _ => True
  | CClone b | CFree b | CSetMode b _ | CSetSplit b _ | CReset b => handle_ok (holds past) b
  | CTransform i n o m b | CUntransform i n o m b => handle_ok (holds past) b /\ buffer_ok i n /\ buffer_ok o m
  | CFreeAuto b | CSetUseAll b _ => handle_ok (holds_auto past) b
  | CAutoTransform b d n o m _ => handle_ok (holds_auto past) b /\ buffer_ok d n /\ buffer_ok o m
  end.
(** The length of the texture a call passes, and that no automatic transform was
    given an empty one (debug builds stop with a panic there, C44). *)
Definition texture_len (call : c_call St) : option Z :=
  match call with
  | CTransform _ n _ _ _ | CUntransform _ n _ _ _ | CAutoTransform _ _ n _ _ _ => Some n
  | _ => None
  end.
Definition no_empty_auto (past : history) : Prop :=
  forall b d n o m cell a, In (CAutoTransform b d n o m cell, a) past -> n <> 0.
(** The manual builder a call made. *)
Definition new_handle (call : c_call St) (a : answered_with) : handle :=
  match call, a with
  | CNew, GaveHandle b | CClone _, GaveHandle b => b
  | CAutoTransform _ _ _ _ _ _, GaveBuilder Success _ (Some b) => b
  | _, _ => None
  end.
(** The manual builder a call may change or free. *)
Definition touches (call : c_call St) : handle :=
  match call with
  | CFree b | CSetMode b _ | CSetSplit b _ | CReset b => b
  | _ => None
  end.
(** The automatic builder a call may change or free. *)
Definition touches_auto (call : c_call St) : handle :=
  match call with CFreeAuto b | CSetUseAll b _ => b | _ => None end.
End Run.

(** ** The Rust builder: a sequence of option calls on a new builder *)
Inductive option_call := SetMode (mode : stable_variant) | SetSplit (split : bool).
Definition set_option (b : manual_builder) (o : option_call) : manual_builder :=
  match o with SetMode mode => manual_decorrelation_mode b mode | SetSplit split => manual_split_colour_endpoints b split end.
Fixpoint find_map {A B} (f : A -> option B) (l : list A) : option B :=
  match l with [] => None | a :: l => match f a with Some b => Some b | None => find_map f l end end.
Definition last_mode (sets : list option_call) : stable_variant :=
  match find_map (fun o => match o with SetMode m => Some m | _ => None end) (rev sets) with Some m => m | None => Variant1 end.
Definition last_split (sets : list option_call) : bool :=
  match find_map (fun o => match o with SetSplit s => Some s | _ => None end) (rev sets) with Some s => s | None => true end.

(** What an automatic transform shows its caller besides the new handle: the
    code, the output bytes and the estimator context. *)
Definition seen_by_caller {A B C D E} (r : res (A * B * C * D * E)) : res (A * B * E) :=
  match r with Ok (a, b, _, _, e) => Ok (a, b, e) | Panic w => Panic w | Ub w => Ub w end.
