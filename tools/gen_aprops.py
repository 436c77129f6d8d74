#!/usr/bin/env python3
"""Writes theories/Proofs/AutoTheorems.v (the proofs) and theories/Props/PAuto.v
(the statements) for the automatic searches of the three formats."""
import os
ROOT = os.path.join(os.path.dirname(os.path.abspath(__file__)), '..', 'rocq', 'theories')
AND = "/\\"

def items(F, blk, opt):
    three = F == 'bc3'
    st = 'settings3' if three else 'settings'
    mode = 'decorrelation_mode3' if three else 'decorrelation_mode'
    half = '2' if F == 'bc1' else '4'
    order = lambda all: (f"(if {all} then comprehensive_test_order{'3' if three else ''} else fast_test_order{'3' if three else ''})")
    oin = 'order3_in' if three else 'order1_in'
    o = 'order3' if three else 'order1'
    dflt = 'default_settings3' if three else 'default_settings'
    lay = (f"{F}_layout ({mode} s) (split_alpha_endpoints s) (split_colour_endpoints3 s)" if three
           else f"{F}_layout ({mode} s) (split_colour_endpoints s)")
    cond = lambda c: {'bc1': f"(c_debug {c} = true -> x <> []) ->", 'bc2': f"(c_avx512bw {c} = true -> c_avx512vl {c} = true) ->",
            'bc3': f"(c_debug {c} = true -> x <> []) ->"}[F]
    # sums of two answers must not overflow in BC3
    lim = "2 * z" if three else "z"
    purelim = f"(forall d n z, size d n = ROk z -> 0 <= z {AND} {lim} <= usize_max v) ->"
    stlim = ("(forall st d n z st', estimate_compressed_size e st d n = (ROk z, st') -> 2 * z <= usize_max v) ->" if three else "")
    HS = 'HS' if three else ''
    tot = lambda s, n: f"total_size (fun d => size d {n}) ({F}_shown x {s})"
    note = {'bc1': "", 'bc2': " The AVX512VL condition is that of C10_bc2_avx512vl_refuted.",
            'bc3': " Two answers of the estimator must add up within a [usize] (C18_bc3_overflow_refuted)."}[F]
    hs_pure = "ltac:(intros st d n z st' E; cbn [pure estimate_compressed_size] in E; injection E as E _; apply SZ in E; lia)" if three else ""
    hs_log = ("ltac:(intros st0 d n z st' E; cbn [logging estimate_compressed_size] in E; "
              "destruct (estimate_compressed_size e (fst st0) d n) as [a s0] eqn:E0; injection E as -> _; exact (HS _ _ _ _ _ E0))") if three else ""
    hs = HS
    valid = f'''  destruct (valid_auto _ _ _ _ _ _ _ _ R) as (Hm & Ho).'''
    out = []
    args = f"c v mx size all x out"
    A_pure = f"({F}_AUTO c v (pure mx size) all x out K HD {hs_pure} Hm Ho)"
    totlim = (f'''  assert (TL : forall n s' z, {tot("s'", "n")} = ROk z -> z <= usize_max v).
  {{ intros n s' z. unfold {F}_shown. cbn [total_size].
''' + ('''    destruct (size _ n) as [a|] eqn:E1; [|discriminate]. destruct (size (lay (colour_fields _ _ _) _) n) as [b|] eqn:E2; [|discriminate].
    intros Q. injection Q as <-. apply SZ in E1. apply SZ in E2. lia. }''' if three else
    '''    destruct (size _ n) as [a|] eqn:E1; [|discriminate]. intros Q. injection Q as <-. apply SZ in E1. lia. }'''))
    exest = "(fun d _ => ROk (zlen (filter (fun b => negb (Byte.eqb b x00)) d)))"
    EX = f'''let x := map (fun i => lo8 (i * 37 + 11)) (zseq 0 {2*blk}) in
  exists s y, transform_{F}_auto (Cfg true X86_64 false true true true true true true true x00) (Env (2 ^ 64 - 1) (fun _ => true))
    (pure (fun n => ROk (2 * n)) (fun d _ => ROk (fold_right Z.add 0 (map b2z d)) : result Z unit)) true x x tt = Ok (ROk s, y, tt) {AND} s <> {dflt}'''
    out.append((f"{opt}_{F}_auto_optimal",
        f"{opt}: with a deterministic estimator, the settings returned are a candidate whose estimate is smallest among all candidates, and the output is what the transform with these settings writes.{note}",
        f'''forall (Er : Type) (c : cfg) (v : env) (mx : Z -> result Z Er) (size : list byte -> Z -> result Z Er)
    (all : bool) (x out : list byte) (s : {st}) (y : list byte),
  cpu_ok c -> {cond('c')} {purelim}
  transform_{F}_auto c v (pure mx size) all x out tt = Ok (ROk s, y, tt) ->
  candidate all ({mode} s) {AND} transform_{F} c s x out = Ok (ROk tt, y) {AND}
  exists scratch z, mx (zlen x / {half}) = ROk scratch {AND} {tot('s', 'scratch')} = ROk z {AND}
    forall s', candidate all ({mode} s') -> exists z', {tot("s'", 'scratch')} = ROk z' {AND} z <= z\'''',
        f'''  intros Er {args} s y K HD SZ R.
{valid}
{totlim}
  destruct (AUTO_ok _ _ _ _ _ _ _ _ _ _ _ _ {A_pure} ltac:(apply {oin}; unfold candidate; auto) R) as (I & Y).
  destruct (AUTO_pure _ _ _ _ _ _ _ _ _ _ _ _ {A_pure} ltac:(apply {oin}; unfold candidate; auto) TL R) as (n & z & N1 & N2 & N3 & _).
  split; [apply {oin}; exact I|]. split.
  - rewrite Y. apply {F}_slice; {'[exact K|exact HD|exact Hm|exact Ho]' if F=='bc2' else '[exact K|intros D _; exact (HD D)|exact Hm|exact Ho]'}.
  - exists n, z. split; [exact N1|]. split; [exact N2|]. intros s' C. apply N3. apply {oin}. exact C.''',
        (f"a search that finds something better than the default", EX,
         "  cbv zeta. do 2 eexists. split; [vm_compute; reflexivity|discriminate].")))
    out.append((f"{opt}_{F}_auto_first",
        f"{opt}: ties go to the first in test order: every candidate tried earlier has a strictly larger estimate (unless all estimates are the largest [usize], when the default is returned).",
        f'''forall (Er : Type) (c : cfg) (v : env) (mx : Z -> result Z Er) (size : list byte -> Z -> result Z Er)
    (all : bool) (x out : list byte) (s : {st}) (y : list byte),
  cpu_ok c -> {cond('c')} {purelim}
  transform_{F}_auto c v (pure mx size) all x out tt = Ok (ROk s, y, tt) ->
  exists scratch z, mx (zlen x / {half}) = ROk scratch {AND} {tot('s', 'scratch')} = ROk z {AND}
    (z < usize_max v -> exists earlier later, {order('all')} = earlier ++ s :: later {AND}
      forall s', In s' earlier -> exists z', {tot("s'", 'scratch')} = ROk z' {AND} z < z')''',
        f'''  intros Er {args} s y K HD SZ R.
{valid}
{totlim}
  destruct (AUTO_pure _ _ _ _ _ _ _ _ _ _ _ _ {A_pure} ltac:(apply {oin}; unfold candidate; auto) TL R) as (n & z & N1 & N2 & _ & N4).
  exists n, z. split; [exact N1|]. split; [exact N2|]. exact N4.''', None))
    out.append((f"C20_{F}_ultra_never_worse",
        f"C20: allowing all decorrelation modes never gives a larger estimate.{note}",
        f'''forall (Er : Type) (c : cfg) (v : env) (mx : Z -> result Z Er) (size : list byte -> Z -> result Z Er)
    (x out1 out2 : list byte) (s1 s2 : {st}) (y1 y2 : list byte),
  cpu_ok c -> {cond('c')} {purelim}
  transform_{F}_auto c v (pure mx size) false x out1 tt = Ok (ROk s1, y1, tt) ->
  transform_{F}_auto c v (pure mx size) true x out2 tt = Ok (ROk s2, y2, tt) ->
  exists scratch z1 z2, mx (zlen x / {half}) = ROk scratch {AND}
    {tot('s1', 'scratch')} = ROk z1 {AND} {tot('s2', 'scratch')} = ROk z2 {AND} z2 <= z1''',
        f'''  intros Er c v mx size x out1 out2 s1 s2 y1 y2 K HD SZ R1 R2.
  destruct (l{opt}_{F}_auto_optimal Er c v mx size false x out1 s1 y1 K HD SZ R1) as (C1 & _ & n1 & z1 & M1 & T1 & _).
  destruct (l{opt}_{F}_auto_optimal Er c v mx size true x out2 s2 y2 K HD SZ R2) as (C2 & _ & n2 & z2 & M2 & T2 & O2).
  rewrite M1 in M2. injection M2 as <-. exists n1, z1, z2. split; [exact M1|]. split; [exact T1|]. split; [exact T2|].
  destruct (O2 s1) as (z' & E & L); [unfold candidate; auto|]. rewrite T1 in E. injection E as <-. exact L.''', 
        (f"both searches succeed",
         f'''let x := map (fun i => lo8 (i * 37 + 11)) (zseq 0 {2*blk}) in
  exists s1 y1 s2 y2,
    transform_{F}_auto (Cfg true X86_64 false true true true true true true true x00) (Env (2 ^ 64 - 1) (fun _ => true))
      (pure (fun n => ROk (2 * n)) (fun d _ => ROk (fold_right Z.add 0 (map b2z d)) : result Z unit)) false x x tt = Ok (ROk s1, y1, tt) {AND}
    transform_{F}_auto (Cfg true X86_64 false true true true true true true true x00) (Env (2 ^ 64 - 1) (fun _ => true))
      (pure (fun n => ROk (2 * n)) (fun d _ => ROk (fold_right Z.add 0 (map b2z d)) : result Z unit)) true x x tt = Ok (ROk s2, y2, tt) {AND} s2 <> {dflt}''',
         "  cbv zeta. do 4 eexists. split; [vm_compute; reflexivity|]. split; [vm_compute; reflexivity|discriminate].")))
    out.append((f"C21_{F}_auto_lossless",
        f"C21: whatever the estimator does, restoring the output with the settings returned gives the input back.{note}",
        f'''forall (St Er : Type) (c1 c2 : cfg) (v : env) (e : estimator St Er) (all : bool) (x out out2 : list byte) (st st' : St) (s : {st}) (y : list byte),
  cpu_ok c1 -> cpu_ok c2 -> {cond('c1')} {"(c_debug c2 = true -> x <> []) ->" if F != 'bc2' else ''} {stlim}
  transform_{F}_auto c1 v e all x out st = Ok (ROk s, y, st') -> zlen x <= zlen out2 ->
  exists z, untransform_{F} c2 s (firstn (List.length x) y) out2 = Ok (ROk tt, z) {AND} firstn (List.length x) z = x''',
        f'''  intros St Er c1 c2 v e all x out out2 st st' s y K1 K2 HD {'HD2' if F!='bc2' else ''} {HS} R H2.
{valid}
  destruct (AUTO_ok _ _ _ _ _ _ _ _ _ _ _ _ ({F}_AUTO c1 v e all x out K1 HD {hs} Hm Ho) ltac:(apply {oin}; unfold candidate; auto) R) as (I & ->).
  assert (T : transform_{F} c1 s x out = Ok (ROk tt, {lay} x ++ skipn (List.length x) out))
    by (apply {F}_slice; {'[exact K1|exact HD|exact Hm|exact Ho]' if F=='bc2' else '[exact K1|intros D _; exact (HD D)|exact Hm|exact Ho]'}).
  destruct (l{dict(bc1='C01',bc2='C02',bc3='C03')[F]}_{F}_lossless c1 c2 s x out out2 K1 K2 {'HD' if F=='bc2' else 'ltac:(intros [D|D] _; auto)'} Hm Ho H2) as (y & z & T' & U & E).
  rewrite T in T'. injection T' as <-. exists z. split; assumption.''', None))
    out.append((f"C19_{F}_estimator_errors",
        f"C19: the call always comes to an end. It reports the estimator's error exactly when the last answer was that error, reports an allocation failure only when allocating the requested scratch space fails, and otherwise succeeds; no failing answer is ever passed over. The log does not influence the run.{note}",
        f'''forall (St Er : Type) (c : cfg) (v : env) (e : estimator St Er) (all : bool) (x out : list byte) (st : St),
  cpu_ok c -> {cond('c')} {stlim} zlen x mod {blk} = 0 -> zlen x <= zlen out ->
  exists r y st' log, transform_{F}_auto c v e all x out st = Ok (r, y, st') {AND}
    transform_{F}_auto c v (logging e) all x out (st, []) = Ok (r, y, (st', log)) {AND}
    match r with
    | ROk _ => Forall (fun q => exists z, answer q = ROk z) log
    | RErr (DetermineBestTransform (SizeEstimationError e1)) =>
        exists before q, log = before ++ [q] {AND} answer q = RErr e1 {AND} Forall (fun q => exists z, answer q = ROk z) before
    | RErr (DetermineBestTransform AllocateError) => exists n, log = [AskedMax (zlen x / {half}) (ROk n)] {AND} alloc_ok v n = false
    | RErr _ => False
    end''',
        f'''  intros St Er c v e all x out st K HD {HS} Hm Ho.
  destruct (AUTO_log v e _ _ _ _ _ _ st ({F}_AUTO c v (logging e) all x out K HD {hs_log} Hm Ho)) as (r & y & st' & lg & R & A & _).
  exists r, y, st', lg. split; [|split; [exact R|exact A]].
  pose proof ({F}_log_same c v e all x out st []) as S. rewrite R in S. symmetry. exact S.''',
        (f"an estimator that fails on its third call", f'''let x := map (fun i => lo8 (i * 37 + 11)) (zseq 0 {2*blk}) in
  let e := Estimator (fun st n => (ROk n, st)) (fun st d _ => (if st =? 2 then RErr tt else ROk (zlen d), st + 1)) in
  exists y, transform_{F}_auto (Cfg true X86_64 false true true true true true true true x00) (Env (2 ^ 64 - 1) (fun _ => true))
    e true x x 0 = Ok (RErr (DetermineBestTransform (SizeEstimationError tt)), y, 3)''',
         "  cbv zeta. eexists. vm_compute. reflexivity.")))
    out.append((f"C50_{F}_estimator_calls",
        f"C50: the estimator is first asked for its scratch size; then, candidate by candidate in test order, it is shown exactly the sections of [{F}_shown] with a scratch buffer of the size it asked for, until it fails or all candidates are done.{note}",
        f'''forall (St Er : Type) (c : cfg) (v : env) (e : estimator St Er) (all : bool) (x out : list byte) (st : St),
  cpu_ok c -> {cond('c')} {stlim} zlen x mod {blk} = 0 -> zlen x <= zlen out ->
  exists r y st' a rest, transform_{F}_auto c v (logging e) all x out (st, []) = Ok (r, y, (st', AskedMax (zlen x / {half}) a :: rest)) {AND}
    match a with
    | RErr _ => rest = []
    | ROk scratch => exists seen, Forall2 (fun d q => exists ans, q = AskedSize d scratch ans) seen rest {AND}
        exists unseen, flat_map ({F}_shown x) {order('all')} = seen ++ unseen {AND}
          ((exists s, r = ROk s) -> unseen = [])
    end''',
        f'''  intros St Er c v e all x out st K HD {HS} Hm Ho.
  destruct (AUTO_log v e _ _ _ _ _ _ st ({F}_AUTO c v (logging e) all x out K HD {hs_log} Hm Ho)) as (r & y & st' & lg & R & _ & a & rest & -> & B).
  exists r, y, st', a, rest. split; [exact R|exact B].''',
        (f"a complete run makes {'1 + 2 * 16' if three else '1 + 8'} calls", f'''let x := map (fun i => lo8 (i * 37 + 11)) (zseq 0 {2*blk}) in
  exists r y log, transform_{F}_auto (Cfg true X86_64 false true true true true true true true x00) (Env (2 ^ 64 - 1) (fun _ => true))
    (logging no_estimation) true x x (tt, []) = Ok (r, y, (tt, log)) {AND} List.length log = {'33' if three else '9'}%nat''',
         "  cbv zeta. do 3 eexists. split; vm_compute; reflexivity.")))
    if three:
        out.append(("C18_bc3_overflow_refuted",
        "C18 without the condition on the size of the answers: alpha and colour estimates are added as [usize]. In a release build the sum wraps and the worst candidate wins; in a debug build the call panics.",
        f'''exists (v : env) (size : list byte -> Z -> result Z unit) (x out : list byte) (s best : settings3) (y : list byte) (z z' : Z),
  (forall d n k, size d n = ROk k -> 0 <= k <= usize_max v) {AND} zlen x mod 16 = 0 {AND} zlen x <= zlen out {AND}
  transform_bc3_auto (Cfg false X86_64 false true true true true true true true x00) v (pure (fun n => ROk n) size) true x out tt = Ok (ROk s, y, tt) {AND}
  total_size (fun d => size d (zlen x / 4)) (bc3_shown x s) = ROk z {AND}
  total_size (fun d => size d (zlen x / 4)) (bc3_shown x best) = ROk z' {AND} z' < z {AND}
  exists why, transform_bc3_auto (Cfg true X86_64 false true true true true true true true x00) v (pure (fun n => ROk n) size) true x out tt = Panic why''',
        f'''  exists (Env (2 ^ 64 - 1) (fun _ => true)).
  exists (fun d _ => ROk (if zlen d =? 2 then 2 ^ 63 else if Byte.eqb (hd x00 d) xff then 2 ^ 63 else 1)).
  exists (List.repeat xff 16), (List.repeat x00 16), (Settings3 VNone true false), (Settings3 V1 true true).
  do 3 eexists. split; [|split; [reflexivity|split; [vm_compute; discriminate|split; [vm_compute; reflexivity|split; [vm_compute; reflexivity|split; [vm_compute; reflexivity|split; [reflexivity|eexists; vm_compute; reflexivity]]]]]]].
  intros d n k E. injection E as <-. cbn [usize_max]. destruct (zlen d =? 2); [lia|]. destruct (Byte.eqb _ _); lia.''', None))
    return out

pre = '''(** Properties of the automatic searches. Written by tools/gen_aprops.py. *)
From Verif Require Import Base.Bytes Base.Res Model.Color565 Model.Kernel Model.Transform Model.Auto Spec.YCoCg Spec.Layout Spec.Estimator
  Proofs.SliceFacts Proofs.TransformProps Proofs.AutoFacts Proofs.AutoProps.
From Coq Require Import ZifyBool ZifyNat.

Lemma valid_auto : forall {St Er S} blk (run : ptr -> ptr -> Z -> mem -> St -> res (result S (determine_error Er) * mem * St)) x out st s y st',
  auto_checked blk run x out st = Ok (ROk s, y, st') -> zlen x mod blk = 0 /\\ zlen x <= zlen out.
Proof.
  intros St Er S blk run x out st s y st' H. unfold auto_checked in H.
  destruct (zlen x mod blk =? 0) eqn:E1; [|discriminate]. cbn [negb] in H. destruct (zlen out <? zlen x) eqn:E2; [discriminate|]. lia.
Qed.
Arguments valid_auto {St Er S}.

(** forgetting the log *)
Definition forget {A St L} (r : res (A * (St * L))) : res (A * St) :=
  match r with Ok (a, (st, _)) => Ok (a, st) | Panic w => Panic w | Ub w => Ub w end.

Lemma loop_forget : forall {St Er S} transform (est : mem -> St -> res (result Z Er * St)) est' (order : list S) best bs last m st (lg : list (call Er)),
  (forall m st lg, forget (est' m (st, lg)) = est m st) ->
  forget (search_loop transform est' order best bs last m (st, lg)) = search_loop transform est order best bs last m st.
Proof.
  intros St Er S transform est est' order. induction order as [|a r IH]; intros best bs last m st lg H; [reflexivity|].
  cbn [search_loop]. destruct (transform a m) as [m1|w|w]; cbn [bind]; [|reflexivity..].
  rewrite <- (H m1 st lg). destruct (est' m1 (st, lg)) as [[[z|e1] [st1 lg1]]|w|w]; cbn [bind forget]; try reflexivity.
  destruct (z <? bs); apply IH; exact H.
Qed.

Lemma search_forget : forall {St Er S} v (e : estimator St Er) n transform est est' same (dflt : S) order m st lg,
  (forall k m st lg, forget (est' k m (st, lg)) = est k m st) ->
  forget (search v (logging e) n transform est' same dflt order m (st, lg)) = search v e n transform est same dflt order m st.
Proof.
  intros St Er S v e n transform est est' same dflt order m st lg H. unfold search. cbn [logging max_compressed_size fst snd].
  destruct (max_compressed_size e st n) as [[k|e1] st1]; [|reflexivity].
  destruct (negb (k =? 0) && negb (alloc_ok v k)); [reflexivity|].
  rewrite <- (loop_forget transform (est k) (est' k) order dflt (usize_max v) dflt m st1 (lg ++ [AskedMax n (ROk k)]) (H k)).
  destruct (search_loop _ _ _ _ _ _ _ _) as [[[[[b l]|e1] m1] [st2 lg2]]|w|w]; cbn [bind forget]; try reflexivity.
  destruct (same b l); [reflexivity|]. destruct (transform b m1); reflexivity.
Qed.

Lemma checked_forget : forall {St Er S L} blk (run : ptr -> ptr -> Z -> mem -> St -> res (result S (determine_error Er) * mem * St))
  (run' : ptr -> ptr -> Z -> mem -> St * L -> res (result S (determine_error Er) * mem * (St * L))) x out st lg,
  (forall a b l m st lg, forget (run' a b l m (st, lg)) = run a b l m st) ->
  forget (auto_checked blk run' x out (st, lg)) = auto_checked blk run x out st.
Proof.
  intros St Er S L blk run run' x out st lg H. unfold auto_checked. destruct (negb _); [reflexivity|]. destruct (_ <? _); [reflexivity|].
  rewrite <- (H (Ptr BIn 0) (Ptr BOut 0) (zlen x) (Mem x [] out) st lg).
  destruct (run' _ _ _ _ _) as [[[[s|e1] m1] [st1 lg1]]|w|w]; reflexivity.
Qed.

Lemma at_forget : forall {St Er} (e : estimator St Er) p n k m st lg, forget (estimate_at (logging e) p n k m (st, lg)) = estimate_at e p n k m st.
Proof.
  intros. unfold estimate_at. destruct (mload m p n) as [d|w|w]; [|reflexivity..]. cbn [bind logging estimate_compressed_size fst snd].
  destruct (estimate_compressed_size e st d k) as [a s]. reflexivity.
Qed.

Lemma bc1_log_same : forall {St Er} c v (e : estimator St Er) all x out st lg,
  forget (transform_bc1_auto c v (logging e) all x out (st, lg)) = transform_bc1_auto c v e all x out st.
Proof. intros. apply checked_forget. intros. apply search_forget. intros. apply at_forget. Qed.
Lemma bc2_log_same : forall {St Er} c v (e : estimator St Er) all x out st lg,
  forget (transform_bc2_auto c v (logging e) all x out (st, lg)) = transform_bc2_auto c v e all x out st.
Proof.
  intros. apply checked_forget. intros. apply search_forget. intros. cbn beta.
  destruct (ptr_add _ _ _); [|reflexivity..]. apply at_forget.
Qed.
Lemma bc3_log_same : forall {St Er} c v (e : estimator St Er) all x out st lg,
  forget (transform_bc3_auto c v (logging e) all x out (st, lg)) = transform_bc3_auto c v e all x out st.
Proof.
  intros. apply checked_forget. intros. apply search_forget. intros. unfold estimate_bc3.
  rewrite <- (at_forget e b (l / 16 * 2) k m0 st1 lg1). destruct (estimate_at (logging e) b _ _ _ _) as [[[z|e1] [st2 lg2]]|w|w]; cbn [bind forget]; try reflexivity.
  destruct (ptr_add _ _ _) as [p|w|w]; cbn [bind forget]; try reflexivity.
  rewrite <- (at_forget e p (l / 16 * 4) k m0 st2 lg2). destruct (estimate_at (logging e) p _ _ _ _) as [[[z'|e1] [st3 lg3]]|w|w]; cbn [bind forget]; try reflexivity.
  destruct (_ <=? _); [reflexivity|]. destruct (c_debug c); reflexivity.
Qed.
'''
allitems = items('bc1', 8, 'C16') + items('bc2', 16, 'C17') + items('bc3', 16, 'C18')
with open(os.path.join(ROOT, 'Proofs', 'AutoTheorems.v'), 'w') as f:
    f.write(pre)
    for name, comment, stmt, proof, ex in allitems:
        f.write(f"\nLemma l{name} : {stmt}.\nProof.\n{proof}\nQed.\n")
with open(os.path.join(ROOT, 'Props', 'PAuto.v'), 'w') as f:
    f.write('''(** Automatic choice of settings: C16-C21, C50. *)
From Verif Require Import Base.Bytes Base.Res Model.Color565 Model.Kernel Model.Transform Model.Auto Spec.YCoCg Spec.Layout Spec.Estimator.
From Verif Require Import Proofs.AutoTheorems.
''')
    for name, comment, stmt, proof, ex in allitems:
        f.write(f"\n(** {comment} *)\nTheorem {name} : {stmt}.\nProof. exact l{name}. Qed.\nPrint Assumptions {name}.\n")
        if ex:
            f.write(f"\n(** {ex[0]} *)\nExample {name}_example : {ex[1]}.\nProof.\n{ex[2]}\nQed.\n")
