(** Spec/CApi.v for a C program on a big-endian machine. *)
From Verif Require Import Base.Bytes Base.Res Model.Color565 Model.Kernel Model.Transform Model.Auto Model.Builders Model.CApi Model.BeCApi Spec.Files Spec.CApi Spec.BeFiles.

Section Run.
Context {St : Type}.
Variables (k : codec) (c : cfg) (v : env).
Definition be_run_c_call (call : c_call St) (h : heap St) (st : St) : res (answered_with * heap St * St) :=
  match call with
  | CNew => let '(b, h1) := new_manual h in Ok (GaveHandle b, h1, st)
  | CClone b => do r <- clone_manual b h ;; Ok (GaveHandle (fst r), snd r, st)
  | CFree b => do h1 <- free_manual b h ;; Ok (Nothing, h1, st)
  | CSetMode b mode => do h1 <- set_decorrelation_mode b mode h ;; Ok (Nothing, h1, st)
  | CSetSplit b split => do h1 <- set_split_colour_endpoints b split h ;; Ok (Nothing, h1, st)
  | CReset b => do h1 <- reset_to_defaults b h ;; Ok (Nothing, h1, st)
  | CTransform i n o m b => do r <- be_manual_transform_c k c i n o m b h ;; Ok (GaveBytes (fst r) (snd r), h, st)
  | CUntransform i n o m b => do r <- be_manual_untransform_c k c i n o m b h ;; Ok (GaveBytes (fst r) (snd r), h, st)
  | CNewAuto e => let '(b, h1) := new_auto e h in Ok (GaveHandle b, h1, st)
  | CFreeAuto b => do h1 <- free_auto b h ;; Ok (Nothing, h1, st)
  | CSetUseAll b use_all => do r <- set_use_all_decorrelation_modes b use_all h ;; Ok (GaveCode (fst r), snd r, st)
  | CAutoTransform b d n o m cell =>
      do r <- be_auto_transform_c k c v b d n o m cell h st ;;
      let '(code, o1, cell1, h1, st1) := r in Ok (GaveBuilder code o1 cell1, h1, st1)
  end.

(** [be_ran past h st]: a program that made these calls, starting with no builders,
    has the heap [h] and the estimator context [st]. *)
Inductive be_ran : @history St -> heap St -> St -> Prop :=
| be_ran_start : forall st, be_ran [] (Heap [] []) st
| be_ran_call : forall past h st call a h1 st1, be_ran past h st -> be_run_c_call call h st = Ok (a, h1, st1) -> be_ran ((call, a) :: past) h1 st1.

(** [found] is right: each automatic transform wrote its data in the layout of
    the settings found. *)
Definition be_found_right (found : nat -> settings) (past : @history St) : Prop :=
  forall b d n o m cell o1 r, In (CAutoTransform b (Some d) n (Some o) m cell, GaveBuilder Success (Some o1) (Some (Some r))) past ->
    o1 = be_texture_layout k (found r) (firstn (Z.to_nat n) d) ++ skipn (Z.to_nat n) o.
End Run.
