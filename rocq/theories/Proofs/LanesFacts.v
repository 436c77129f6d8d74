(** Each 16-bit lane of the SIMD YCoCg-R routines equals the scalar function. *)
From Verif Require Import Base.Bytes Model.Color565 Model.Lanes Model.LanesGen Model.Ycc.
From Verif Require Import Proofs.Color565Facts.

(** ternarylogic immediates used by the code. *)
Definition w_ok (a : Z) : Prop := 0 <= a < 65536.

Lemma bits_hi : forall a i, w_ok a -> 16 <= i -> Z.testbit a i = false.
Proof.
  intros a i [H1 H2] Hi. rewrite <- (Z.mod_small a (2 ^ 16)) by (change (2^16) with 65536; lia).
  apply Z.mod_pow2_bits_high. lia.
Qed.

Lemma w_not_bit : forall a i, w_ok a -> 0 <= i ->
  Z.testbit (w_not a) i = (i <? 16) && negb (Z.testbit a i).
Proof.
  intros a i Ha Hi. unfold w_not. rewrite Z.lxor_spec. change 65535 with (Z.ones 16).
  destruct (Z.ltb_spec i 16).
  - rewrite Z.ones_spec_low by lia. rewrite xorb_true_r. reflexivity.
  - rewrite Z.ones_spec_high by lia. rewrite bits_hi by (assumption || lia). reflexivity.
Qed.

Ltac tern_bits :=
  intros; apply Z.bits_inj'; intros i Hi; unfold w_tern, w_or, w_and;
  rewrite ?Z.lor_spec;
  repeat match goal with |- context [Z.testbit ?n ?k] =>
    match n with Zpos _ => match k with Z0 => idtac | Zpos _ => idtac end;
      let b := eval vm_compute in (Z.testbit n k) in
      change (Z.testbit n k) with b end end;
  cbv beta iota;
  rewrite ?Z.lor_spec, ?Z.land_spec, ?Z.bits_0, ?w_not_bit by assumption;
  destruct (Z.ltb_spec i 16);
  [ repeat match goal with |- context [Z.testbit ?n i] => destruct (Z.testbit n i) end; reflexivity
  | rewrite ?bits_hi by (assumption || lia); reflexivity ].

Lemma tern_254 : forall a b c, w_ok a -> w_ok b -> w_ok c ->
  w_tern 254 a b c = w_or a (w_or b c).
Proof. tern_bits. Qed.
Lemma tern_236 : forall a b c, w_ok a -> w_ok b -> w_ok c ->
  w_tern 236 a b c = w_or (w_and a c) b.
Proof. tern_bits. Qed.
Lemma tern_248 : forall a b c, w_ok a -> w_ok b -> w_ok c ->
  w_tern 248 a b c = w_or a (w_and b c).
Proof. tern_bits. Qed.

Lemma w_ok_mod : forall z, w_ok (z mod 65536).
Proof. intros. apply Z.mod_pos_bound. lia. Qed.
Lemma w_ok_w16 : forall z, w_ok (w16 z).
Proof. intros. unfold w16. rewrite land_65535. apply w_ok_mod. Qed.
Lemma w_ok_add : forall a b, w_ok (w_add a b). Proof. intros. apply w_ok_w16. Qed.
Lemma w_ok_sub : forall a b, w_ok (w_sub a b). Proof. intros. apply w_ok_w16. Qed.
Lemma w_ok_slli : forall a b, w_ok (w_slli a b). Proof. intros. apply w_ok_w16. Qed.
Lemma w_ok_srli : forall a k, 0 <= k -> w_ok a -> w_ok (w_srli a k).
Proof.
  intros a k Hk [H1 H2]. unfold w_srli. rewrite Z.shiftr_div_pow2 by lia.
  assert (0 < 2 ^ k) by (apply Z.pow_pos_nonneg; lia).
  split; [apply Z.div_pos; lia|]. apply Z.div_lt_upper_bound; [lia|]. nia.
Qed.
Lemma w_ok_or : forall a b, w_ok a -> w_ok b -> w_ok (w_or a b).
Proof.
  intros a b Ha Hb. unfold w_or. split.
  - apply Z.lor_nonneg. destruct Ha, Hb. auto.
  - assert (E : Z.lor a b = (Z.lor a b) mod 2 ^ 16).
    { apply Z.bits_inj'. intros i Hi. destruct (Z_lt_le_dec i 16).
      - rewrite Z.mod_pow2_bits_low by lia. reflexivity.
      - rewrite Z.mod_pow2_bits_high by lia. rewrite Z.lor_spec, !bits_hi by assumption. reflexivity. }
    rewrite E. change 65536 with (2 ^ 16). apply Z.mod_pos_bound. lia.
Qed.
Lemma w_ok_and : forall a b, w_ok a -> w_ok b -> w_ok (w_and a b).
Proof.
  intros a b [Ha Ha'] [Hb Hb']. unfold w_and. split.
  - apply Z.land_nonneg. auto.
  - assert (E : Z.land a b = (Z.land a b) mod 2 ^ 16).
    { apply Z.bits_inj'. intros i Hi. destruct (Z_lt_le_dec i 16).
      - rewrite Z.mod_pow2_bits_low by lia. reflexivity.
      - rewrite Z.mod_pow2_bits_high by lia. rewrite Z.land_spec, bits_hi by ((split; assumption) || lia).
        reflexivity. }
    rewrite E. change 65536 with (2 ^ 16). apply Z.mod_pos_bound. lia.
Qed.

Ltac wok := repeat first
  [ assumption | apply w_ok_add | apply w_ok_sub | apply w_ok_slli
  | apply w_ok_srli; [lia|] | apply w_ok_or | apply w_ok_and
  | (unfold w_ok; lia) ].

Ltac terns := repeat match goal with
  | |- context [w_tern 254 ?a ?b ?c] => rewrite (tern_254 a b c) by wok
  | |- context [w_tern 236 ?a ?b ?c] => rewrite (tern_236 a b c) by wok
  | |- context [w_tern 248 ?a ?b ?c] => rewrite (tern_248 a b c) by wok
  end.

(** Evaluate the broadcast constants. *)
Ltac consts odd :=
  repeat match goal with
  | |- context [w_set1_16 ?c] => let v := eval vm_compute in (w_set1_16 c) in change (w_set1_16 c) with v
  | |- context [w_set1_32 odd ?c] =>
      let v := eval vm_compute in (w_set1_32 false c) in
      replace (w_set1_32 odd c) with v by (destruct odd; reflexivity)
  end.

(** Equality of two [or]s of the same operands in a different order. *)
Ltac or_ac :=
  unfold w_or; apply Z.bits_inj'; intros i Hi; rewrite !Z.lor_spec;
  repeat match goal with |- context [Z.testbit ?n i] => destruct (Z.testbit n i) end; reflexivity.

Lemma and31_mod : forall Z k, Z mod 32 = k -> w_and Z 31 mod 32 = k.
Proof. intros Z k E. arith. lia. Qed.
Lemma sl11 : forall Z k, Z mod 32 = k -> w_slli Z 11 = k * 2048.
Proof. intros Z k E. arith. lia. Qed.
Lemma sl10 : forall Z k, Z mod 32 = k -> w_and (w_slli Z 10) 31744 = k * 1024.
Proof. intros Z k E. arith. lia. Qed.
Lemma sl10' : forall Z k, Z mod 32 = k -> w_slli (w_and Z 31) 10 = k * 1024.
Proof. intros Z k E. arith. lia. Qed.
Lemma sl6 : forall c, 0 <= c < 32 -> w_slli c 6 = c * 64.
Proof. intros c E. arith. lia. Qed.
Lemma sl5 : forall c, 0 <= c < 32 -> w_slli c 5 = c * 32.
Proof. intros c E. arith. lia. Qed.
Lemma sl1 : forall c, 0 <= c < 32 -> w_slli c 1 = c * 2.
Proof. intros c E. arith. lia. Qed.
Lemma add_self : forall c, 0 <= c < 32 -> w_add c c = c * 2.
Proof. intros c E. arith. lia. Qed.
Lemma and31 : forall Z k, Z mod 32 = k -> w_and Z 31 = k.
Proof. intros Z k E. arith. lia. Qed.
Lemma sl6m : forall Z k, Z mod 32 = k -> w_and (w_slli Z 6) 1984 = k * 64.
Proof. intros Z k E. arith. lia. Qed.

Section Dec.
Variables (r g l b : Z).
Hypothesis Hr : 0 <= r < 32.
Hypothesis Hg : 0 <= g < 32.
Hypothesis Hl : 0 <= l < 2.
Hypothesis Hb : 0 <= b < 32.
Let x := pk r g l b.

Lemma x_ok : w_ok x.
Proof. unfold w_ok, x, pk. lia. Qed.

Lemma co_ok : forall R B, R mod 32 = r -> B mod 32 = b -> w_and (w_sub R B) 31 = f_co r b.
Proof. intros R B E1 E2. arith. unfold f_co. lia. Qed.
Lemma cg_ok : forall G T, G mod 32 = g -> T mod 32 = f_t r b -> w_and (w_sub G T) 31 = f_cg r g b.
Proof. intros G T E1 E2. arith. unfold f_cg. lia. Qed.
Lemma t_ok : forall B, B mod 32 = b -> w_add (w_srli (f_co r b) 1) B mod 32 = f_t r b.
Proof. intros B E. arith. unfold f_t. set (h := f_co r b / 2). lia. Qed.
Lemma t_ok' : forall B, B mod 32 = b -> w_add B (w_srli (f_co r b) 1) mod 32 = f_t r b.
Proof. intros B E. arith. unfold f_t. set (h := f_co r b / 2). lia. Qed.
Lemma y_ok : forall T, T mod 32 = f_t r b -> w_add (w_srli (f_cg r g b) 1) T mod 32 = f_y r g b.
Proof. intros T E. arith. unfold f_y. set (h := f_cg r g b / 2). lia. Qed.
Lemma y_ok' : forall T, T mod 32 = f_t r b -> w_add T (w_srli (f_cg r g b) 1) mod 32 = f_y r g b.
Proof. intros T E. arith. unfold f_y. set (h := f_cg r g b / 2). lia. Qed.
Lemma r_fld : w_srli x 11 mod 32 = r. Proof. arith. unfold x, pk. lia. Qed.
Lemma g_fld : w_srli x 6 mod 32 = g. Proof. arith. unfold x, pk. lia. Qed.
Lemma b_fld : x mod 32 = b. Proof. unfold x, pk. lia. Qed.

Lemma gl_a : w_and x 32 = l * 32. Proof. arith. unfold x, pk. lia. Qed.
Lemma gl_b : w_and (w_slli x 10) 32768 = l * 32768. Proof. arith. unfold x, pk. lia. Qed.
Lemma gl_c : w_and (w_srli x 5) 1 = l. Proof. arith. unfold x, pk. lia. Qed.
Lemma gl_d : w_slli l 5 = l * 32. Proof. arith. lia. Qed.
Lemma gl_e : w_slli l 15 = l * 32768. Proof. arith. lia. Qed.

Ltac fld := repeat first
  [ apply r_fld | apply g_fld | apply b_fld | apply t_ok | apply t_ok' | apply y_ok | apply y_ok'
  | apply and31_mod ].
Ltac dec odd :=
  consts odd; terns;
  repeat match goal with
  | |- context [w_and (w_sub ?R ?B) 31] =>
      rewrite (co_ok R B) by fld
  | |- context [w_and (w_sub ?G ?T) 31] =>
      rewrite (cg_ok G T) by fld
  end;
  repeat match goal with
  | |- context [w_slli ?Z 11] => rewrite (sl11 Z (f_y r g b)) by fld
  | |- context [w_and (w_slli ?Z 10) 31744] => rewrite (sl10 Z (f_y r g b)) by fld
  | |- context [w_slli (w_and ?Z 31) 10] => rewrite (sl10' Z (f_y r g b)) by fld
  end;
  rewrite ?gl_a, ?gl_b, ?gl_c, ?gl_d, ?gl_e, ?sl6, ?sl5, ?sl1, ?add_self by apply (f_bounds r g b).

Lemma w_or_pack1 : forall a b c d, 0 <= a < 32 -> 0 <= b < 32 -> 0 <= c < 2 -> 0 <= d < 32 ->
  w_or (w_or (w_or (a * 2048) (b * 64)) (c * 32)) d = a * 2048 + b * 64 + c * 32 + d.
Proof. exact pack1. Qed.
Lemma w_or_pack2 : forall a b c d, 0 <= a < 2 -> 0 <= b < 32 -> 0 <= c < 32 -> 0 <= d < 32 ->
  w_or (w_or (w_or (a * 32768) (b * 1024)) (c * 32)) d = a * 32768 + b * 1024 + c * 32 + d.
Proof. exact pack2. Qed.
Lemma w_or_pack3 : forall a b c d, 0 <= a < 32 -> 0 <= b < 32 -> 0 <= c < 32 -> 0 <= d < 2 ->
  w_or (w_or (w_or (a * 2048) (b * 64)) (c * 2)) d = a * 2048 + b * 64 + c * 2 + d.
Proof. exact pack3. Qed.

Ltac fin1 := change x with (pk r g l b); rewrite (proj1 (decorrelate_fields r g l b Hr Hg Hl Hb));
  rewrite <- w_or_pack1 by (assumption || apply (f_bounds r g b)); or_ac.
Ltac fin2 := change x with (pk r g l b); rewrite (proj1 (proj2 (decorrelate_fields r g l b Hr Hg Hl Hb)));
  rewrite <- w_or_pack2 by (assumption || apply (f_bounds r g b)); or_ac.
Ltac fin3 := change x with (pk r g l b); rewrite (proj2 (proj2 (decorrelate_fields r g l b Hr Hg Hl Hb)));
  rewrite <- w_or_pack3 by (assumption || apply (f_bounds r g b)); or_ac.

Lemma dec_lanes : forall odd,
  (decorrelate_ycocg_r_var1_sse2 odd x = decorrelate_var1 x /\
   decorrelate_ycocg_r_var2_sse2 odd x = decorrelate_var2 x /\
   decorrelate_ycocg_r_var3_sse2 odd x = decorrelate_var3 x) /\
  (decorrelate_ycocg_r_var1_avx2 odd x = decorrelate_var1 x /\
   decorrelate_ycocg_r_var2_avx2 odd x = decorrelate_var2 x /\
   decorrelate_ycocg_r_var3_avx2 odd x = decorrelate_var3 x) /\
  (decorrelate_ycocg_r_var1_avx512bw odd x = decorrelate_var1 x /\
   decorrelate_ycocg_r_var2_avx512bw odd x = decorrelate_var2 x /\
   decorrelate_ycocg_r_var3_avx512bw odd x = decorrelate_var3 x).
Proof.
  pose proof x_ok as Hx. intros odd. repeat apply conj.
  - unfold decorrelate_ycocg_r_var1_sse2; cbv zeta. dec odd. fin1.
  - unfold decorrelate_ycocg_r_var2_sse2; cbv zeta. dec odd. fin2.
  - unfold decorrelate_ycocg_r_var3_sse2; cbv zeta. dec odd. fin3.
  - unfold decorrelate_ycocg_r_var1_avx2; cbv zeta. dec odd. fin1.
  - unfold decorrelate_ycocg_r_var2_avx2; cbv zeta. dec odd. fin2.
  - unfold decorrelate_ycocg_r_var3_avx2; cbv zeta. dec odd. fin3.
  - unfold decorrelate_ycocg_r_var1_avx512bw; cbv zeta. dec odd. fin1.
  - unfold decorrelate_ycocg_r_var2_avx512bw; cbv zeta. dec odd. fin2.
  - unfold decorrelate_ycocg_r_var3_avx512bw; cbv zeta. dec odd. fin3.
Qed.
End Dec.

Section Rec.
Variables (y co cg l : Z).
Hypothesis Hy : 0 <= y < 32.
Hypothesis Hco : 0 <= co < 32.
Hypothesis Hcg : 0 <= cg < 32.
Hypothesis Hl : 0 <= l < 2.
(** The colour under each of the three packings. *)
Let x1 := y * 2048 + co * 64 + l * 32 + cg.
Let x2 := l * 32768 + y * 1024 + co * 32 + cg.
Let x3 := y * 2048 + co * 64 + cg * 2 + l.

Lemma it_ok : forall Y, Y mod 32 = y -> w_sub Y (cg / 2) mod 32 = i_t y cg.
Proof. intros Y E. arith. unfold i_t. set (h := cg / 2). lia. Qed.
Lemma ib_ok : forall T, T mod 32 = i_t y cg -> w_sub T (co / 2) mod 32 = i_b y co cg.
Proof. intros T E. arith. unfold i_b. set (h := co / 2). lia. Qed.
Lemma ig_ok : forall T C, T mod 32 = i_t y cg -> C mod 32 = cg -> w_add T C mod 32 = i_g y cg.
Proof. intros T C E1 E2. arith. unfold i_g. lia. Qed.
Lemma ig_ok' : forall T C, T mod 32 = i_t y cg -> C mod 32 = cg -> w_add C T mod 32 = i_g y cg.
Proof. intros T C E1 E2. arith. unfold i_g. lia. Qed.
Lemma ir_ok : forall B C, B mod 32 = i_b y co cg -> C mod 32 = co -> w_add B C mod 32 = i_r y co cg.
Proof. intros B C E1 E2. arith. unfold i_r. lia. Qed.
Lemma ir_ok' : forall B C, B mod 32 = i_b y co cg -> C mod 32 = co -> w_add C B mod 32 = i_r y co cg.
Proof. intros B C E1 E2. arith. unfold i_r. lia. Qed.


Lemma x1_ok : w_ok x1. Proof. unfold w_ok, x1. lia. Qed.
Lemma x2_ok : w_ok x2. Proof. unfold w_ok, x2. lia. Qed.
Lemma x3_ok : w_ok x3. Proof. unfold w_ok, x3. lia. Qed.

Lemma x1_y : w_srli x1 11 mod 32 = y. Proof. arith. unfold x1. lia. Qed.
Lemma x1_co : w_srli x1 6 mod 32 = co. Proof. arith. unfold x1. lia. Qed.
Lemma x1_cg : x1 mod 32 = cg. Proof. unfold x1. lia. Qed.
Lemma x1_cgh : w_and (w_srli x1 1) 15 = cg / 2. Proof. arith. unfold x1. lia. Qed.
Lemma x1_coh : w_and (w_srli x1 7) 15 = co / 2. Proof. arith. unfold x1. lia. Qed.
Lemma x1_l : w_and x1 32 = l * 32. Proof. arith. unfold x1. lia. Qed.

Lemma x2_y : w_srli x2 10 mod 32 = y. Proof. arith. unfold x2. lia. Qed.
Lemma x2_co : w_srli x2 5 mod 32 = co. Proof. arith. unfold x2. lia. Qed.
Lemma x2_cg : x2 mod 32 = cg. Proof. unfold x2. lia. Qed.
Lemma x2_cgh : w_and (w_srli x2 1) 15 = cg / 2. Proof. arith. unfold x2. lia. Qed.
Lemma x2_coh : w_and (w_srli x2 6) 15 = co / 2. Proof. arith. unfold x2. lia. Qed.
Lemma x2_l : w_and (w_srli x2 10) 32 = l * 32. Proof. arith. unfold x2. lia. Qed.

Lemma x3_y : w_srli x3 11 mod 32 = y. Proof. arith. unfold x3. lia. Qed.
Lemma x3_co : w_srli x3 6 mod 32 = co. Proof. arith. unfold x3. lia. Qed.
Lemma x3_cg : w_srli x3 1 mod 32 = cg. Proof. arith. unfold x3. lia. Qed.
Lemma x3_cgh : w_and (w_srli x3 2) 15 = cg / 2. Proof. arith. unfold x3. lia. Qed.
Lemma x3_coh : w_and (w_srli x3 7) 15 = co / 2. Proof. arith. unfold x3. lia. Qed.
Lemma x3_l : w_and (w_slli x3 5) 32 = l * 32. Proof. arith. unfold x3. lia. Qed.

Ltac fld := solve [ repeat first
  [ apply x1_y | apply x1_co | apply x1_cg | apply x2_y | apply x2_co | apply x2_cg
  | apply x3_y | apply x3_co | apply x3_cg
  | apply it_ok | apply ib_ok
  | solve [apply ig_ok; fld] | solve [apply ig_ok'; fld]
  | solve [apply ir_ok; fld] | solve [apply ir_ok'; fld] ] ].
Ltac rec odd :=
  consts odd; terns;
  rewrite ?x1_cgh, ?x1_coh, ?x1_l, ?x2_cgh, ?x2_coh, ?x2_l, ?x3_cgh, ?x3_coh, ?x3_l;
  repeat match goal with
  | |- context [w_slli ?Z 11] => rewrite (sl11 Z (i_r y co cg)) by fld
  | |- context [w_and (w_slli ?Z 6) 1984] => rewrite (sl6m Z (i_g y cg)) by fld
  | |- context [w_and ?Z 31] => rewrite (and31 Z (i_b y co cg)) by fld
  end.
Ltac fin lem := rewrite lem; unfold pk;
  rewrite <- w_or_pack1 by (assumption || apply (i_bounds y co cg)); or_ac.

Let fields := recorrelate_fields y co cg l Hy Hco Hcg Hl.

Lemma rec_lanes : forall odd,
  (recorrelate_ycocg_r_var1_sse2 odd x1 = recorrelate_var1 x1 /\
   recorrelate_ycocg_r_var2_sse2 odd x2 = recorrelate_var2 x2 /\
   recorrelate_ycocg_r_var3_sse2 odd x3 = recorrelate_var3 x3) /\
  (recorrelate_ycocg_r_var1_avx2 odd x1 = recorrelate_var1 x1 /\
   recorrelate_ycocg_r_var2_avx2 odd x2 = recorrelate_var2 x2 /\
   recorrelate_ycocg_r_var3_avx2 odd x3 = recorrelate_var3 x3) /\
  (recorrelate_ycocg_r_var1_avx512bw odd x1 = recorrelate_var1 x1 /\
   recorrelate_ycocg_r_var2_avx512bw odd x2 = recorrelate_var2 x2 /\
   recorrelate_ycocg_r_var3_avx512bw odd x3 = recorrelate_var3 x3).
Proof.
  pose proof x1_ok as Hx1. pose proof x2_ok as Hx2. pose proof x3_ok as Hx3.
  pose proof fields as (F1 & F2 & F3). fold x1 in F1. fold x2 in F2. fold x3 in F3.
  intros odd. repeat apply conj.
  - unfold recorrelate_ycocg_r_var1_sse2; cbv zeta. rec odd. fin F1.
  - unfold recorrelate_ycocg_r_var2_sse2; cbv zeta. rec odd. fin F2.
  - unfold recorrelate_ycocg_r_var3_sse2; cbv zeta. rec odd. fin F3.
  - unfold recorrelate_ycocg_r_var1_avx2; cbv zeta. rec odd. fin F1.
  - unfold recorrelate_ycocg_r_var2_avx2; cbv zeta. rec odd. fin F2.
  - unfold recorrelate_ycocg_r_var3_avx2; cbv zeta. rec odd. fin F3.
  - unfold recorrelate_ycocg_r_var1_avx512bw; cbv zeta. rec odd. fin F1.
  - unfold recorrelate_ycocg_r_var2_avx512bw; cbv zeta. rec odd. fin F2.
  - unfold recorrelate_ycocg_r_var3_avx512bw; cbv zeta. rec odd. fin F3.
Qed.
End Rec.

Lemma simd_lanes :
  forall (odd : bool) (x : Z), 0 <= x < 65536 ->
  (decorrelate_ycocg_r_var1_sse2 odd x = decorrelate_var1 x /\
   decorrelate_ycocg_r_var2_sse2 odd x = decorrelate_var2 x /\
   decorrelate_ycocg_r_var3_sse2 odd x = decorrelate_var3 x /\
   recorrelate_ycocg_r_var1_sse2 odd x = recorrelate_var1 x /\
   recorrelate_ycocg_r_var2_sse2 odd x = recorrelate_var2 x /\
   recorrelate_ycocg_r_var3_sse2 odd x = recorrelate_var3 x) /\
  (decorrelate_ycocg_r_var1_avx2 odd x = decorrelate_var1 x /\
   decorrelate_ycocg_r_var2_avx2 odd x = decorrelate_var2 x /\
   decorrelate_ycocg_r_var3_avx2 odd x = decorrelate_var3 x /\
   recorrelate_ycocg_r_var1_avx2 odd x = recorrelate_var1 x /\
   recorrelate_ycocg_r_var2_avx2 odd x = recorrelate_var2 x /\
   recorrelate_ycocg_r_var3_avx2 odd x = recorrelate_var3 x) /\
  (decorrelate_ycocg_r_var1_avx512bw odd x = decorrelate_var1 x /\
   decorrelate_ycocg_r_var2_avx512bw odd x = decorrelate_var2 x /\
   decorrelate_ycocg_r_var3_avx512bw odd x = decorrelate_var3 x /\
   recorrelate_ycocg_r_var1_avx512bw odd x = recorrelate_var1 x /\
   recorrelate_ycocg_r_var2_avx512bw odd x = recorrelate_var2 x /\
   recorrelate_ycocg_r_var3_avx512bw odd x = recorrelate_var3 x).
Proof.
  intros odd x Hx.
  destruct (pk_of x Hx) as (r & g & l & b & E & Hr & Hg & Hl & Hb).
  pose proof (dec_lanes r g l b Hr Hg Hl Hb odd) as ((A1 & A2 & A3) & (B1 & B2 & B3) & C1 & C2 & C3).
  rewrite <- E in *. clear r g l b E Hr Hg Hl Hb.
  destruct (unpk1 x Hx) as (y & co & cg & l & E & H1 & H2 & H3 & H4).
  pose proof (rec_lanes y co cg l H1 H2 H3 H4 odd) as ((D1 & _ & _) & (F1 & _ & _) & G1 & _ & _).
  rewrite <- E in *. clear y co cg l E H1 H2 H3 H4.
  destruct (unpk2 x Hx) as (y & co & cg & l & E & H1 & H2 & H3 & H4).
  pose proof (rec_lanes y co cg l H1 H2 H3 H4 odd) as ((_ & D2 & _) & (_ & F2 & _) & _ & G2 & _).
  rewrite <- E in *. clear y co cg l E H1 H2 H3 H4.
  destruct (unpk3 x Hx) as (y & co & cg & l & E & H1 & H2 & H3 & H4).
  pose proof (rec_lanes y co cg l H1 H2 H3 H4 odd) as ((_ & _ & D3) & (_ & _ & F3) & _ & _ & G3).
  rewrite <- E in *. clear y co cg l E H1 H2 H3 H4.
  tauto.
Qed.

Lemma ycc_is_scalar : forall i d v odd x, 0 <= x < 65536 -> ycc i d v odd x = ycc_scalar d v x.
Proof.
  intros i d v odd x Hx.
  pose proof (simd_lanes odd x Hx) as
    ((A1 & A2 & A3 & A4 & A5 & A6) & (B1 & B2 & B3 & B4 & B5 & B6) & C1 & C2 & C3 & C4 & C5 & C6).
  destruct d, v, i; cbv [ycc ycc_scalar decorrelate recorrelate]; solve [reflexivity | assumption].
Qed.

Lemma ycc_scalar_bound : forall d v x, 0 <= x < 65536 -> 0 <= ycc_scalar d v x < 65536.
Proof. intros [] v x H; simpl; auto using decorrelate_bound, recorrelate_bound. Qed.
