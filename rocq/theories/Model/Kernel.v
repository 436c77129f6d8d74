(** The machine the transform kernels run on.

    A kernel of the repository is a Rust function over raw pointers whose loops
    are written either in Rust with [core::arch] intrinsics / unaligned scalar
    reads, or as an [asm!] block.  This file gives the meaning of the pieces such
    a function is made of: pointers into the caller's buffers, registers holding
    little-endian bytes, the instructions used, and the two loop shapes.  The
    instruction meanings follow the Intel SDM pseudo-code (byte 0 = least
    significant) and are part of the trusted base; the kernels themselves are in
    Model/Gen*.v. *)
From Verif Require Import Base.Bytes Base.Res Model.Color565 Model.Ycc.

(** ** Memory *)

(** The buffers a kernel can see: [BIn] the caller's input, [BOut] the caller's
    output, [BAux] a temporary already filled by an earlier call. Only [BOut] is
    ever written through a [*mut] pointer.
    src/core/dxt-lossless-transform-bc1/src/transform/standard/transform/portable32.rs:25-30 (the pointers a kernel is given) *)
Inductive buf := BIn | BAux | BOut.
Definition buf_eqb (a b : buf) : bool :=
  match a, b with BIn, BIn | BAux, BAux | BOut, BOut => true | _, _ => false end.

(** src/core/dxt-lossless-transform-bc1/src/transform/standard/transform/portable32.rs:25-30 *)
Record mem := Mem { m_in : list byte; m_aux : list byte; m_out : list byte }.
Definition buf_of (m : mem) (b : buf) : list byte :=
  match b with BIn => m_in m | BAux => m_aux m | BOut => m_out m end.

(** A pointer: a buffer and a byte offset into it.
    src/core/dxt-lossless-transform-bc1/src/transform/standard/transform/portable32.rs:25-30 *)
Record ptr := Ptr { p_buf : buf; p_off : Z }.
Definition padd (p : ptr) (k : Z) : ptr := Ptr (p_buf p) (p_off p + k).

(** Rust's [ptr::add]/[ptr::sub]: the result must stay inside the allocation or
    one past its end, anything else is undefined behaviour.
    src/core/dxt-lossless-transform-bc1/src/transform/standard/transform/portable32.rs:33, 38, 44 *)
Definition ptr_add (m : mem) (p : ptr) (k : Z) : res ptr :=
  if (0 <=? p_off p + k) && (p_off p + k <=? zlen (buf_of m (p_buf p)))
  then Ok (padd p k) else Ub "pointer arithmetic out of bounds".

(** [p as usize - q as usize] for two pointers into the same buffer.
    src/core/dxt-lossless-transform-bc3/src/transform/standard/transform/avx2.rs:55 *)
Definition ptr_diff (p q : ptr) : res Z :=
  if negb (buf_eqb (p_buf p) (p_buf q)) then Ub "difference of unrelated pointers"
  else if p_off q <=? p_off p then Ok (p_off p - p_off q) else Panic "subtract with overflow".

(** [p < q] between pointers; unrelated pointers have no model-level order.
    src/core/dxt-lossless-transform-bc1/src/transform/standard/transform/portable32.rs:34 *)
Definition ptr_ltb (p q : ptr) : res bool :=
  if buf_eqb (p_buf p) (p_buf q) then Ok (p_off p <? p_off q)
  else Ub "comparison of unrelated pointers".

(** [a - b] on usize: underflow panics (or wraps in release builds, which the
    model also rejects).
    src/core/dxt-lossless-transform-bc3/src/transform/standard/transform/avx2.rs:55 *)
Definition usub (a b : Z) : res Z := if b <=? a then Ok (a - b) else Panic "subtract with overflow".

(** src/core/dxt-lossless-transform-bc1/src/transform/standard/transform/portable32.rs:36 (read_unaligned) *)
Definition mload (m : mem) (p : ptr) (n : Z) : res (list byte) :=
  if (0 <=? p_off p) && (p_off p + n <=? zlen (buf_of m (p_buf p)))
  then Ok (slice (buf_of m (p_buf p)) (p_off p) n) else Ub "read out of bounds".

(** src/core/dxt-lossless-transform-bc1/src/transform/standard/transform/portable32.rs:41 (write_unaligned) *)
Definition mstore (m : mem) (p : ptr) (d : list byte) : res mem :=
  match p_buf p with
  | BOut =>
      if (0 <=? p_off p) && (p_off p + zlen d <=? zlen (m_out m))
      then Ok (Mem (m_in m) (m_aux m) (splice (m_out m) (p_off p) d))
      else Ub "write out of bounds"
  | _ => Ub "write to a read-only buffer"
  end.

(** ** Instructions *)

(** Register operations. Widths are in bytes; [n] counts 128-bit lanes.
    the intrinsics and assembly instructions of src/core/*/src/transform, for example src/core/dxt-lossless-transform-bc1/src/transform/standard/transform/avx2.rs:49-80 *)
Inductive op :=
| OMov                               (* mov*, register casts of equal width *)
| OConst (l : list byte)             (* _mm*_set*, constants loaded from statics *)
| OBytes (off n : Z)                 (* bytes off..off+n: truncating `as`, castsi512_si128, extracti128, storel/storeh halves *)
| OZext (n : Z)                      (* zero extension to n bytes: widening `as`, vmovq/vmovd loads *)
| OCastUp (n : Z)                    (* _mm512_castsi128_si512...: upper bytes are undefined *)
| OShr (k : Z)                       (* x >> 8k on an unsigned integer *)
| OShl (k : Z)                       (* x << 8k on an unsigned integer *)
| OConcat                            (* a in the low bytes, b in the high bytes *)
| OOr                                (* bitwise or *)
| OAnd                               (* bitwise and *)
| OShufps (n imm : Z)                (* shufps / vshufps *)
| OPshufd (n imm : Z)                (* pshufd *)
| OPshuflw (n imm : Z)               (* pshuflw *)
| OPshufhw (n imm : Z)               (* pshufhw *)
| OUnpackLo (e n : Z)                (* (v)punpckl{bw,wd,dq,qdq}: element size e *)
| OUnpackHi (e n : Z)                (* (v)punpckh... *)
| OMovhlps                           (* movhlps dst, src: low half := src high half *)
| OPermq (imm : Z)                   (* vpermq / vpermpd ymm, imm8 *)
| OPerm2i128 (imm : Z)               (* vperm2i128 *)
| OPshufb (n : Z)                    (* (v)pshufb a, ctrl *)
| OPermVar (e n : Z)                 (* vpermd & co: args ctrl, a; n elements *)
| OPermT2 (e n : Z)                  (* vpermt2{b,w,d,q}/permutex2var: args a, ctrl, b *)
| OYcc (i : isa) (d : dir) (v1 v2 v3 : variant). (* match VARIANT { 1 => .., 2 => .., 3 => .. } *)

(** ** Operations, for any representation of a byte

    [dom A] is what is needed of a byte representation [A]. The machine uses
    [A := byte] ([cdom]); the checker in Proofs/ uses symbolic bytes.
    src/core/dxt-lossless-transform-bc1/src/transform/standard/transform/avx2.rs:49-80 *)
Record dom (A : Type) := Dom {
  d_const : byte -> A;
  d_junk : A;
  d_as_const : A -> option byte;
  d_or : A -> A -> option A;
  d_and : A -> A -> option A;
  d_ycc : isa -> dir -> variant -> variant -> variant -> bool -> A -> A -> option (A * A)
}.
Arguments Dom {A}. Arguments d_const {A}. Arguments d_junk {A}. Arguments d_as_const {A}.
Arguments d_or {A}. Arguments d_and {A}. Arguments d_ycc {A}.

(** Where a result byte comes from: byte [i] of argument [a], or a constant 0,
    or an undefined byte.
    src/core/dxt-lossless-transform-bc1/src/transform/standard/transform/avx2.rs:49-80 *)
Inductive pick := PArg (a : nat) (i : Z) | PZero | PJunk.

(** src/core/dxt-lossless-transform-bc1/src/transform/standard/transform/avx2.rs:49-80 *)
Fixpoint mapM {A B} (f : A -> option B) (l : list A) : option (list B) :=
  match l with
  | [] => Some []
  | a :: l' =>
      match f a with
      | None => None
      | Some b => match mapM f l' with None => None | Some r => Some (b :: r) end
      end
  end.

(** src/core/dxt-lossless-transform-bc1/src/transform/standard/transform/avx2.rs:49-80 *)
Definition do_pick {A} (D : dom A) (args : list (list A)) (p : pick) : option A :=
  match p with
  | PArg a i => match nth_error args a with
                | Some l => if 0 <=? i then nth_error l (Z.to_nat i) else None
                | None => None
                end
  | PZero => Some (d_const D x00)
  | PJunk => Some (d_junk D)
  end.

Definition picks {A} (D : dom A) (args : list (list A)) (ps : list pick) : option (list A) :=
  mapM (do_pick D args) ps.

(** [n] elements of [e] bytes; element [j] of the result is element
    [snd (f j)] of argument [fst (f j)].
    src/core/dxt-lossless-transform-bc1/src/transform/standard/transform/avx2.rs:49-80 *)
Definition elems (e n : Z) (f : Z -> nat * Z) : list pick :=
  flat_map (fun j => let '(a, s) := f j in
                     map (fun b => PArg a (s * e + b)) (zseq 0 (Z.to_nat e)))
           (zseq 0 (Z.to_nat n)).

(** Two-bit field [j] of an immediate.
    src/core/dxt-lossless-transform-bc1/src/transform/with_split_colour/transform/sse2.rs:53 *)
Definition imm2 (imm j : Z) : Z := imm / (2 ^ (2 * j)) mod 4.

(** vshufps: in each 128-bit lane, dwords 0-1 from a, dwords 2-3 from b.
    src/core/dxt-lossless-transform-bc1/src/transform/with_split_colour_and_recorr/transform/sse2.rs:33; then pshufd src/core/dxt-lossless-transform-bc1/src/transform/standard/transform/bench/sse2.rs:37, pshuflw and pshufhw src/core/dxt-lossless-transform-bc1/src/transform/with_split_colour/transform/sse2.rs:53-54 *)
Definition sel_shufps (n imm : Z) : list pick :=
  elems 4 (4 * n) (fun j => (if j mod 4 <? 2 then 0%nat else 1%nat, 4 * (j / 4) + imm2 imm (j mod 4))).
Definition sel_pshufd (n imm : Z) : list pick :=
  elems 4 (4 * n) (fun j => (0%nat, 4 * (j / 4) + imm2 imm (j mod 4))).
Definition sel_pshuflw (n imm : Z) : list pick :=
  elems 2 (8 * n) (fun j => (0%nat, if j mod 8 <? 4 then 8 * (j / 8) + imm2 imm (j mod 8) else j)).
Definition sel_pshufhw (n imm : Z) : list pick :=
  elems 2 (8 * n) (fun j => (0%nat, if j mod 8 <? 4 then j else 8 * (j / 8) + 4 + imm2 imm (j mod 8 - 4))).
(** punpck: [p = 16/e] elements per lane; interleave the low (high) p/2 of a and b.
    src/core/dxt-lossless-transform-bc3/src/transform/with_split_alphas/untransform/sse2.rs:90-91; then vpermq src/core/dxt-lossless-transform-bc1/src/transform/with_recorrelate/untransform/avx2.rs:87, vperm2i128 src/core/dxt-lossless-transform-bc1/src/transform/with_split_colour_and_recorr/untransform/avx2.rs:112-113 *)
Definition sel_unpack (hi : bool) (e n : Z) : list pick :=
  let p := 16 / e in
  elems e (p * n) (fun j => (if (j mod p) mod 2 =? 0 then 0%nat else 1%nat,
                             p * (j / p) + (if hi then p / 2 else 0) + (j mod p) / 2)).
Definition sel_permq (imm : Z) : list pick := elems 8 4 (fun j => (0%nat, imm2 imm j)).
Definition sel_perm2i128 (imm : Z) : list pick :=
  let half c := if 8 <=? c mod 16 then repeat PZero 16
                else elems 16 1 (fun _ => (Z.to_nat (c mod 4 / 2), c mod 2)) in
  half imm ++ half (imm / 16).

(** The unsigned value of element [j] ([e] bytes, little-endian) of a constant.
    src/core/dxt-lossless-transform-bc1/src/transform/with_split_colour_and_recorr/transform/avx2.rs:89 *)
Definition elem_val (e : Z) (c : list byte) (j : Z) : Z :=
  fold_right (fun b acc => b2z b + 256 * acc) 0 (slice c (j * e) e).

(** vpermd src/core/dxt-lossless-transform-bc1/src/transform/with_split_colour_and_recorr/transform/avx2.rs:89; then vpermt2 src/core/dxt-lossless-transform-bc3/src/transform/with_split_alphas/transform/avx512vbmi.rs:210, pshufb src/core/dxt-lossless-transform-common/benches/split_color565_endpoints/ssse3.rs:13 *)
Definition sel_permvar (e n : Z) (ctrl : list byte) : list pick :=
  elems e n (fun j => (1%nat, elem_val e ctrl j mod n)).
Definition sel_permt2 (e n : Z) (ctrl : list byte) : list pick :=
  elems e n (fun j => let k := elem_val e ctrl j mod (2 * n) in
                      if k <? n then (0%nat, k) else (2%nat, k - n)).
Definition sel_pshufb (n : Z) (ctrl : list byte) : list pick :=
  map (fun j => let c := b2z (znth ctrl j) in
                if 128 <=? c then PZero else PArg 0 (16 * (j / 16) + c mod 16))
      (zseq 0 (Z.to_nat (16 * n))).

(** src/core/dxt-lossless-transform-bc1/src/transform/with_split_colour_and_recorr/transform/avx2.rs:89 *)
Definition consts {A} (D : dom A) (l : list A) : option (list byte) := mapM (d_as_const D) l.

Fixpoint map2M {A} (f : A -> A -> option A) (a b : list A) : option (list A) :=
  match a, b with
  | [], [] => Some []
  | x :: a', y :: b' =>
      match f x y, map2M f a' b' with Some z, Some r => Some (z :: r) | _, _ => None end
  | _, _ => None
  end.

(** One colour per 16-bit lane; [odd] is the parity of the lane number.
    src/core/dxt-lossless-transform-common/src/intrinsics/color_565/decorrelate/sse2.rs:23-60 *)
Fixpoint ycc_lanes {A} (f : bool -> A -> A -> option (A * A)) (odd : bool) (l : list A)
  : option (list A) :=
  match l with
  | [] => Some []
  | lo :: hi :: l' =>
      match f odd lo hi, ycc_lanes f (negb odd) l' with
      | Some (a, b), Some r => Some (a :: b :: r)
      | _, _ => None
      end
  | _ => None
  end.

(** src/core/dxt-lossless-transform-bc1/src/transform/standard/transform/avx2.rs:49-80 *)
Definition range (a : nat) (off n : Z) : list pick := map (PArg a) (zseq off (Z.to_nat n)).

Definition apply_op {A} (D : dom A) (o : op) (args : list (list A)) : option (list A) :=
  match o, args with
  | OMov, [a] => Some a
  | OConst l, [] => Some (map (d_const D) l)
  | OBytes off n, [a] => picks D args (range 0 off n)
  | OZext n, [a] => picks D args (range 0 0 (zlen a) ++ repeat PZero (Z.to_nat (n - zlen a)))
  | OCastUp n, [a] => picks D args (range 0 0 (zlen a) ++ repeat PJunk (Z.to_nat (n - zlen a)))
  | OShr k, [a] => picks D args (range 0 k (zlen a - k) ++ repeat PZero (Z.to_nat k))
  | OShl k, [a] => picks D args (repeat PZero (Z.to_nat k) ++ range 0 0 (zlen a - k))
  | OConcat, [a; b] => Some (a ++ b)
  | OOr, [a; b] => map2M (d_or D) a b
  | OAnd, [a; b] => map2M (d_and D) a b
  | OShufps n imm, [_; _] => picks D args (sel_shufps n imm)
  | OPshufd n imm, [_] => picks D args (sel_pshufd n imm)
  | OPshuflw n imm, [_] => picks D args (sel_pshuflw n imm)
  | OPshufhw n imm, [_] => picks D args (sel_pshufhw n imm)
  | OUnpackLo e n, [_; _] => picks D args (sel_unpack false e n)
  | OUnpackHi e n, [_; _] => picks D args (sel_unpack true e n)
  | OMovhlps, [_; _] => picks D args (range 1 8 8 ++ range 0 8 8)
  | OPermq imm, [_] => picks D args (sel_permq imm)
  | OPerm2i128 imm, [_; _] => picks D args (sel_perm2i128 imm)
  | OPshufb n, [_; c] =>
      match consts D c with Some c' => picks D args (sel_pshufb n c') | None => None end
  | OPermVar e n, [c; _] =>
      match consts D c with Some c' => picks D args (sel_permvar e n c') | None => None end
  | OPermT2 e n, [_; c; _] =>
      match consts D c with Some c' => picks D args (sel_permt2 e n c') | None => None end
  | OYcc i d v1 v2 v3, [a] => ycc_lanes (d_ycc D i d v1 v2 v3) false a
  | _, _ => None
  end.

(** [vt] is the const generic VARIANT the kernel was instantiated with.
    src/core/dxt-lossless-transform-bc1/src/transform/with_split_colour_and_recorr/transform/avx512bw.rs:16, 138-149 *)
Definition vsel (vt : Z) (v1 v2 v3 : variant) : option variant :=
  if vt =? 1 then Some v1 else if vt =? 2 then Some v2 else if vt =? 3 then Some v3 else None.

(** src/core/dxt-lossless-transform-common/src/intrinsics/color_565/decorrelate/sse2.rs:23-60 *)
Definition byte_or (a b : byte) : byte := z2b (Z.lor (b2z a) (b2z b)).
Definition byte_and (a b : byte) : byte := z2b (Z.land (b2z a) (b2z b)).

(** Bytes themselves: undefined bytes read as [junk], which theorems quantify over.
    src/core/dxt-lossless-transform-bc1/src/transform/standard/transform/avx2.rs:49-80 *)
Definition cdom (junk : byte) (vt : Z) : dom byte := {|
  d_const := fun b => b;
  d_junk := junk;
  d_as_const := fun b => Some b;
  d_or := fun a b => Some (byte_or a b);
  d_and := fun a b => Some (byte_and a b);
  d_ycc := fun i d v1 v2 v3 odd lo hi =>
    match vsel vt v1 v2 v3 with
    | Some v => let r := ycc i d v odd (u16le lo hi) in Some (lo8 r, hi8 r)
    | None => None
    end
|}.

(** ** Straight-line code *)

(** src/core/dxt-lossless-transform-bc1/src/transform/standard/transform/portable32.rs:36-45 and src/core/dxt-lossless-transform-bc1/src/transform/standard/transform/avx2.rs:49-80 *)
Inductive instr :=
| ILoad (d p : string) (off n : Z)       (* d := n bytes at p + off *)
| IStore (p : string) (off n : Z) (s : string) (* *(p + off) := s, n bytes *)
| IOp (d : string) (o : op) (args : list string)
| IAdd (p : string) (k : Z)              (* p = p.add(k) (bytes) *)
| IAddAsm (p : string) (k : Z).          (* add p, k - no provenance rules *)

(** the local variables and registers of src/core/dxt-lossless-transform-bc1/src/transform/standard/transform/portable32.rs:25-47 *)
Definition env (A : Type) := list (string * A).
Fixpoint look {A} (e : env A) (x : string) : option A :=
  match e with
  | [] => None
  | (y, a) :: e' => if String.eqb x y then Some a else look e' x
  end.

(** src/core/dxt-lossless-transform-bc1/src/transform/standard/transform/portable32.rs:25-47 *)
Record st := St { vr : env (list byte); pr : env ptr; mm : mem }.

Definition oget {A} (o : option A) (why : string) : res A :=
  match o with Some a => Ok a | None => Ub why end.

(** src/core/dxt-lossless-transform-bc1/src/transform/standard/transform/portable32.rs:36-45 *)
Definition exec1 (junk : byte) (vt : Z) (i : instr) (s : st) : res st :=
  match i with
  | ILoad d p off n =>
      do q <- oget (look (pr s) p) "unbound pointer" ;;
      do v <- mload (mm s) (padd q off) n ;;
      Ok (St ((d, v) :: vr s) (pr s) (mm s))
  | IStore p off n r =>
      do q <- oget (look (pr s) p) "unbound pointer" ;;
      do v <- oget (look (vr s) r) "unbound register" ;;
      if zlen v =? n then
        do m' <- mstore (mm s) (padd q off) v ;;
        Ok (St (vr s) (pr s) m')
      else Ub "width mismatch"
  | IOp d o args =>
      do a <- oget (mapM (look (vr s)) args) "unbound register" ;;
      do v <- oget (apply_op (cdom junk vt) o a) "malformed operation" ;;
      Ok (St ((d, v) :: vr s) (pr s) (mm s))
  | IAdd p k =>
      do q <- oget (look (pr s) p) "unbound pointer" ;;
      do q' <- ptr_add (mm s) q k ;;
      Ok (St (vr s) ((p, q') :: pr s) (mm s))
  | IAddAsm p k =>
      do q <- oget (look (pr s) p) "unbound pointer" ;;
      Ok (St (vr s) ((p, padd q k) :: pr s) (mm s))
  end.

Fixpoint exec (junk : byte) (vt : Z) (l : list instr) (s : st) : res st :=
  match l with
  | [] => Ok s
  | i :: l' => do s' <- exec1 junk vt i s ;; exec junk vt l' s'
  end.

(** ** Loops *)

(** [x < e] on pointers; comparing pointers into different buffers would depend
    on addresses the model does not have, so it is an error.
    src/core/dxt-lossless-transform-bc1/src/transform/standard/transform/portable32.rs:34 *)
Definition ptr_lt (s : st) (x : string) (e : ptr) : res bool :=
  do q <- oget (look (pr s) x) "unbound pointer" ;;
  if buf_eqb (p_buf q) (p_buf e) then Ok (p_off q <? p_off e)
  else Ub "comparison of unrelated pointers".

(** [while x < e { body }];
    src/core/dxt-lossless-transform-bc1/src/transform/standard/transform/portable32.rs:34-46 *)
Fixpoint while_go (fuel : nat) (junk : byte) (vt : Z) (body : list instr) (x : string) (e : ptr)
  (s : st) : res st :=
  do c <- ptr_lt s x e ;;
  if c then
    match fuel with
    | O => Ub "loop does not terminate"
    | S f => do s' <- exec junk vt body s ;; while_go f junk vt body x e s'
    end
  else Ok s.

(** [2: body; cmp x, e; jb 2b];
    src/core/dxt-lossless-transform-bc1/src/transform/standard/transform/avx2.rs:78 *)
Fixpoint asm_go (fuel : nat) (junk : byte) (vt : Z) (body : list instr) (x : string) (e : ptr)
  (s : st) : res st :=
  match fuel with
  | O => Ub "loop does not terminate"
  | S f =>
      do s' <- exec junk vt body s ;;
      do c <- ptr_lt s' x e ;;
      if c then asm_go f junk vt body x e s' else Ok s'
  end.

(** A loop that advances [x] by at least a byte per turn makes no more turns than
    the buffer has bytes, so this much fuel is enough; a loop that needs more
    never stops.
    src/core/dxt-lossless-transform-bc1/src/transform/standard/transform/portable32.rs:34-46 *)
Definition loop_fuel (s : st) (e : ptr) : nat := S (List.length (buf_of (mm s) (p_buf e))).
Definition while_lt (junk : byte) (vt : Z) body x e s := while_go (loop_fuel s e) junk vt body x e s.
Definition asm_jb (junk : byte) (vt : Z) body x e s := asm_go (loop_fuel s e) junk vt body x e s.

(** src/core/dxt-lossless-transform-bc1/src/transform/standard/transform/portable32.rs:25-47 *)
Definition getp (s : st) (x : string) : res ptr := oget (look (pr s) x) "unbound pointer".

(** ** What a kernel can ask about the build and the CPU *)

(** src/core/dxt-lossless-transform-common/src/cpu_detect.rs:15-116 (target_arch, no_runtime_cpu_detection) *)
Inductive arch := X86_64 | X86 | OtherArch.
Record cfg := Cfg {
  c_debug : bool;       (* debug assertions enabled *)
  c_arch : arch;        (* target_arch *)
  c_static : bool;      (* feature no-runtime-cpu-detection: cfg!(target_feature) instead of has_*() *)
  c_sse2 : bool; c_ssse3 : bool; c_avx2 : bool;
  c_avx512f : bool; c_avx512bw : bool; c_avx512vl : bool; c_avx512vbmi : bool;
  c_junk : byte         (* value of undefined bytes *)
}.
(** [cfg!(target_arch = ...)], as in src/core/dxt-lossless-transform-common/src/cpu_detect.rs:15-116 *)
Definition is_x64 (c : cfg) : bool := match c_arch c with X86_64 => true | _ => false end.
Definition is_i686 (c : cfg) : bool := match c_arch c with X86 => true | _ => false end.
Definition is_x86 (c : cfg) : bool := match c_arch c with OtherArch => false | _ => true end.

(** src/core/dxt-lossless-transform-common/src/cpu_detect.rs:15-116: [has_sse2] is a constant on x86-64, the others read CPUID. *)
Definition has_sse2 (c : cfg) : bool := is_x64 c || c_sse2 c.
Definition has_ssse3 (c : cfg) : bool := c_ssse3 c.
Definition has_avx2 (c : cfg) : bool := c_avx2 c.
Definition has_avx512f (c : cfg) : bool := c_avx512f c.
Definition has_avx512bw (c : cfg) : bool := c_avx512bw c.
Definition has_avx512vl (c : cfg) : bool := c_avx512vl c.
Definition has_avx512vbmi (c : cfg) : bool := c_avx512vbmi c.

(** Entering code that uses instructions the CPU lacks ([#[target_feature]] and
    the instructions in the body) is undefined behaviour.
    src/core/dxt-lossless-transform-common/src/cpu_detect.rs:15-116 *)
Definition cpu_has (b : bool) (what : string) : res unit :=
  if b then Ok tt else Ub ("missing CPU feature: " ++ what)%string.

(** What every x86 CPU satisfies: x86-64 includes SSE2, and the implications between
    feature flags that rustc and the Intel manual document.
    src/core/dxt-lossless-transform-common/src/cpu_detect.rs:15-116 *)
Record cpu_ok (c : cfg) : Prop := {
  ok_x64 : is_x64 c = true -> c_sse2 c = true;
  ok_ssse3 : c_ssse3 c = true -> c_sse2 c = true;
  ok_avx2 : c_avx2 c = true -> c_ssse3 c = true;
  ok_512f : c_avx512f c = true -> c_avx2 c = true;
  ok_512bw : c_avx512bw c = true -> c_avx512f c = true;
  ok_512vl : c_avx512vl c = true -> c_avx512f c = true;
  ok_512vbmi : c_avx512vbmi c = true -> c_avx512bw c = true
}.

(** const generic VARIANT values;
    src/core/dxt-lossless-transform-bc1/src/transform/with_split_colour_and_recorr/transform/avx512bw.rs:138-149, 165 *)
Definition vnum (v : variant) : Z := match v with VNone => 0 | V1 => 1 | V2 => 2 | V3 => 3 end.
