(** Two more kinds of loop, found only in the kernels behind the [bench] feature;
    the rest of the machine is in Model/Kernel.v. *)
From Verif Require Import Base.Bytes Base.Res Model.Kernel.
Open Scope string_scope.
Open Scope list_scope.
Open Scope Z_scope.

(** [while n > 0 { n -= 1; body }] and [for _ in 0..n { body }]; straight-line code
    outside a loop is [times 1].
    src/core/dxt-lossless-transform-bc1/src/transform/standard/transform/bench/portable64.rs:300-315, 339-365, 372-380, 405-441, 445-459. *)
Fixpoint times_go (n : nat) (junk : byte) (vt : Z) (body : list instr) (s : st) : res st :=
  match n with
  | O => Ok s
  | S n' => do s' <- exec junk vt body s ;; times_go n' junk vt body s'
  end.
Definition times (junk : byte) (vt : Z) (body : list instr) (n : Z) (s : st) : res st :=
  times_go (Z.to_nat n) junk vt body s.

(** [while x.add(k) < e1 && x < e2 { body }]; [k] in bytes. The sum is formed before
    either comparison, so it must stay inside the allocation.
    src/core/dxt-lossless-transform-bc1/src/transform/standard/transform/bench/portable64.rs:147, 214. *)
Fixpoint while2_go (fuel : nat) (junk : byte) (vt : Z) (body : list instr) (x : string) (k : Z) (e1 e2 : ptr)
  (s : st) : res st :=
  do p <- getp s x ;;
  do q <- ptr_add (mm s) p k ;;
  do c1 <- ptr_ltb q e1 ;;
  do c <- (if c1 then ptr_ltb p e2 else Ok false) ;;
  if c then
    match fuel with
    | O => Ub "loop does not terminate"
    | S f => do s' <- exec junk vt body s ;; while2_go f junk vt body x k e1 e2 s'
    end
  else Ok s.
Definition while_lt2 (junk : byte) (vt : Z) body x k e1 e2 s :=
  while2_go (loop_fuel s e2) junk vt body x k e1 e2 s.
