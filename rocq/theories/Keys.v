(** * Values of cache keys (RandomBigInt and BaseCacheKeyDenorm.func).
    db/sqlite3/triggers.py:10-12, db/postgresql/triggers.py:6-8, db/mysql/triggers.py:6-8,
    denorms.py:206-211.  Floating point numbers are rationals [m * 2^e] with a 53-bit
    significand (exponents unbounded: no overflow or underflow can occur here); an
    operation returns any number nearest to the exact result. *)
From Coq Require Import ZArith QArith Qabs Qpower Lqa Lia.

Definition pow2 (e : Z) : Q := Qpower (2#1) e.
Definition double (q : Q) : Prop := exists m e : Z, (Z.abs m < 2 ^ 53)%Z /\ q == inject_Z m * pow2 e.
Definition nearest (x y : Q) : Prop := double y /\ forall z, double z -> Qabs (x - y) <= Qabs (x - z).
(** Conversion to BIGINT: an integer nearest to the number. *)
Definition to_int (x : Q) (k : Z) : Prop := Qabs (x - inject_Z k) <= 1 # 2.

(** [(9223372036854775806::INT8 * ((RANDOM()-0.5)*2.0))::INT8] on PostgreSQL and
    [(9223372036854775806 * ((RAND()-0.5)*2.0))] stored in a BIGINT column on MySQL. *)
Definition float_draw (k : Z) : Prop :=
  exists r s t c p : Q, double r /\ 0 <= r /\ r < 1 /\
    nearest (r - (1#2)) s /\ nearest (s * 2) t /\ nearest (inject_Z 9223372036854775806) c /\ nearest (c * t) p /\ to_int p k.
(** random.randint(-9223372036854775808, 9223372036854775807) and SQLite's RANDOM(). *)
Definition int_draw (k : Z) : Prop := (-9223372036854775808 <= k <= 9223372036854775807)%Z.

Inductive source := FromPython | FromSQLite | FromPostgres | FromMySQL.
Definition draws (s : source) (k : Z) : Prop :=
  match s with FromPython | FromSQLite => int_draw k | FromPostgres | FromMySQL => float_draw k end.

Lemma nearest_le x y d : double d -> x <= d -> nearest x y -> y <= d.
Proof.
  intros Hd Hx [_ H]. destruct (Qlt_le_dec d y) as [Hlt|]; [|assumption]. exfalso. specialize (H d Hd). revert H.
  apply Qabs_case; apply Qabs_case; intros; lra.
Qed.
Lemma nearest_ge x y d : double d -> d <= x -> nearest x y -> d <= y.
Proof.
  intros Hd Hx [_ H]. destruct (Qlt_le_dec y d) as [Hlt|]; [|assumption]. exfalso. specialize (H d Hd). revert H.
  apply Qabs_case; apply Qabs_case; intros; lra.
Qed.
Lemma double_intro m e q : (Z.abs m < 2 ^ 53)%Z -> q == inject_Z m * pow2 e -> double q.
Proof. exists m, e. split; assumption. Qed.
Lemma pow2_pos e : 0 < pow2 e.
Proof. apply Qpower_0_lt. reflexivity. Qed.
Lemma pow2_plus a b : pow2 (a + b) == pow2 a * pow2 b.
Proof. apply Qpower_plus. intro H. discriminate H. Qed.
(** A floating point number below one is at most 1 - 2^-53. *)
Lemma below_one r : double r -> r < 1 -> r <= 1 - pow2 (-53).
Proof.
  intros (m & e & Hm & Hr) H. rewrite Hr in *. destruct (Z_le_gt_dec (-53) e) as [He|He].
  - assert (Hp : pow2 e == inject_Z (2 ^ (e + 53)) * pow2 (-53)).
    { replace e with ((e + 53) + (-53))%Z at 1 by lia. rewrite pow2_plus. apply Qmult_comp; [|reflexivity].
      unfold pow2. change (2#1) with (inject_Z 2). symmetry. apply Zpower_Qpower. lia. }
    rewrite Hp in H |- *. rewrite Qmult_assoc, <- inject_Z_mult in H |- *.
    set (z := (m * 2 ^ (e + 53))%Z) in *.
    assert (Hz : (z < 2 ^ 53)%Z).
    { apply Znot_ge_lt. intros Hge. assert (Hq : inject_Z (2 ^ 53) <= inject_Z z) by (rewrite <- Zle_Qle; lia).
      assert (Hone : inject_Z (2 ^ 53) * pow2 (-53) == 1) by reflexivity. pose proof (pow2_pos (-53)) as Hpos.
      assert (Hle : inject_Z (2 ^ 53) * pow2 (-53) <= inject_Z z * pow2 (-53)) by (apply Qmult_le_compat_r; lra). lra. }
    assert (Hq : inject_Z z <= inject_Z (2 ^ 53 - 1)) by (rewrite <- Zle_Qle; lia). pose proof (pow2_pos (-53)) as Hpos.
    assert (Hle : inject_Z z * pow2 (-53) <= inject_Z (2 ^ 53 - 1) * pow2 (-53)) by (apply Qmult_le_compat_r; lra).
    eapply Qle_trans; [exact Hle|]. vm_compute. discriminate.
  - assert (Hpe : pow2 e <= pow2 (-54)).
    { assert (Hd : pow2 (-54) == pow2 e * pow2 (-54 - e)) by (rewrite <- pow2_plus; replace (e + (-54 - e))%Z with (-54)%Z by lia; reflexivity).
      assert (H1 : 1 <= pow2 (-54 - e)).
      { unfold pow2. change (2#1) with (inject_Z 2). rewrite <- Zpower_Qpower by lia. change 1 with (inject_Z 1). rewrite <- Zle_Qle.
        pose proof (Z.pow_pos_nonneg 2 (-54 - e) ltac:(lia) ltac:(lia)). lia. }
      pose proof (pow2_pos e) as Hpos. rewrite Hd.
      assert (Hx : pow2 e * 1 <= pow2 e * pow2 (-54 - e)) by (rewrite !(Qmult_comm (pow2 e)); apply Qmult_le_compat_r; lra). lra. }
    assert (Hq : inject_Z m <= inject_Z (2 ^ 53)) by (rewrite <- Zle_Qle; lia). pose proof (pow2_pos e) as Hpos.
    assert (Ha : inject_Z m * pow2 e <= inject_Z (2 ^ 53) * pow2 e) by (apply Qmult_le_compat_r; lra).
    assert (Hb : inject_Z (2 ^ 53) * pow2 e <= inject_Z (2 ^ 53) * pow2 (-54)) by (rewrite !(Qmult_comm (inject_Z (2 ^ 53))); apply Qmult_le_compat_r; [exact Hpe|vm_compute; discriminate]).
    assert (Hc : inject_Z (2 ^ 53) * pow2 (-54) == 1 # 2) by reflexivity. rewrite Hc in Hb.
    assert (Hd : (1#2) <= 1 - pow2 (-53)) by (vm_compute; discriminate). lra.
Qed.
Lemma float_draw_range k : float_draw k -> (-9223372036854775808 <= k <= 9223372036854775807)%Z.
Proof.
  intros (r & s & t & c & p & Dr & R0 & R1 & Ns & Nt & Nc & Np & Hk).
  pose proof (below_one r Dr R1) as R2.
  assert (Dm12 : double (- (1#2))) by (apply (double_intro (-1) (-1)); reflexivity).
  assert (Dp12 : double ((1#2) - pow2 (-53))) by (apply (double_intro (2 ^ 52 - 1) (-53)); reflexivity).
  assert (Dm1 : double (- (1))) by (apply (double_intro (-1) 0); reflexivity).
  assert (Dp1 : double (1 - pow2 (-52))) by (apply (double_intro (2 ^ 52 - 1) (-52)); reflexivity).
  assert (D0 : double 0) by (apply (double_intro 0 0); reflexivity).
  assert (D63 : double (inject_Z (2 ^ 63))) by (apply (double_intro 1 63); reflexivity).
  assert (Dm63 : double (inject_Z (- 2 ^ 63))) by (apply (double_intro (-1) 63); reflexivity).
  assert (Dtop : double (inject_Z (2 ^ 63 - 2 ^ 11))) by (apply (double_intro (2 ^ 52 - 1) 11); reflexivity).
  assert (E53 : pow2 (-52) == 2 * pow2 (-53)) by reflexivity.
  assert (S1 : - (1#2) <= s) by (apply (nearest_ge _ _ _ Dm12) with (2 := Ns); lra).
  assert (S2 : s <= (1#2) - pow2 (-53)) by (apply (nearest_le _ _ _ Dp12) with (2 := Ns); lra).
  assert (T1 : - (1) <= t) by (apply (nearest_ge _ _ _ Dm1) with (2 := Nt); lra).
  assert (T2 : t <= 1 - pow2 (-52)) by (apply (nearest_le _ _ _ Dp1) with (2 := Nt); lra).
  assert (C1 : 0 <= c) by (apply (nearest_ge _ _ _ D0) with (2 := Nc); vm_compute; discriminate).
  assert (C2 : c <= inject_Z (2 ^ 63)) by (apply (nearest_le _ _ _ D63) with (2 := Nc); vm_compute; discriminate).
  assert (P1 : inject_Z (- 2 ^ 63) <= c * t).
  { assert (Ha : c * (- (1)) <= c * t) by (rewrite !(Qmult_comm c); apply Qmult_le_compat_r; lra).
    assert (Hb : inject_Z (- 2 ^ 63) == - inject_Z (2 ^ 63)) by reflexivity. rewrite Hb. lra. }
  assert (P2 : c * t <= inject_Z (2 ^ 63 - 2 ^ 11)).
  { assert (Ha : c * t <= c * (1 - pow2 (-52))) by (rewrite !(Qmult_comm c); apply Qmult_le_compat_r; lra).
    assert (Hq : 0 <= 1 - pow2 (-52)) by (vm_compute; discriminate).
    assert (Hb : c * (1 - pow2 (-52)) <= inject_Z (2 ^ 63) * (1 - pow2 (-52))) by (apply Qmult_le_compat_r; lra).
    assert (Hc : inject_Z (2 ^ 63) * (1 - pow2 (-52)) == inject_Z (2 ^ 63 - 2 ^ 11)) by reflexivity. rewrite Hc in Hb. lra. }
  assert (Q1 : inject_Z (- 2 ^ 63) <= p) by (exact (nearest_ge _ _ _ Dm63 P1 Np)).
  assert (Q2 : p <= inject_Z (2 ^ 63 - 2 ^ 11)) by (exact (nearest_le _ _ _ Dtop P2 Np)).
  apply Qabs_Qle_condition in Hk as [K1 K2]. split.
  - assert (H : inject_Z (- 2 ^ 63 - 1) < inject_Z k).
    { assert (Hb : inject_Z (- 2 ^ 63 - 1) == inject_Z (- 2 ^ 63) - 1) by reflexivity. rewrite Hb. lra. }
    rewrite <- Zlt_Qlt in H. lia.
  - assert (H : inject_Z k < inject_Z (2 ^ 63)).
    { assert (Hb : inject_Z (2 ^ 63) == inject_Z (2 ^ 63 - 2 ^ 11) + inject_Z (2 ^ 11)) by reflexivity. rewrite Hb.
      assert (Hc : 1 <= inject_Z (2 ^ 11)) by (vm_compute; discriminate). lra. }
    rewrite <- Zlt_Qlt in H. lia.
Qed.
Lemma draws_range s k : draws s k -> (-9223372036854775808 <= k <= 9223372036854775807)%Z.
Proof. destruct s; [exact (fun H => H)|exact (fun H => H)|apply float_draw_range|apply float_draw_range]. Qed.

(** The extreme draws are possible: RANDOM() = 0 gives the smallest BIGINT. *)
Lemma double_near x : double x -> nearest x x.
Proof. intros H. split; [assumption|]. intros z _. assert (E : x - x == 0) by ring. rewrite E. apply Qabs_nonneg. Qed.
Lemma spacing (z : Q) : double z -> z < inject_Z (2 ^ 63) -> z <= inject_Z (2 ^ 63 - 2 ^ 10).
Proof.
  intros (m & e & Hm & Hz) H.
  assert (D : double (z * pow2 (-63))).
  { exists m, (e - 63)%Z. split; [assumption|]. rewrite Hz. unfold Z.sub. rewrite pow2_plus. symmetry. apply Qmult_assoc. }
  assert (Hone : z * pow2 (-63) < 1).
  { assert (E : inject_Z (2 ^ 63) * pow2 (-63) == 1) by reflexivity. rewrite <- E. apply Qmult_lt_compat_r; [apply pow2_pos|assumption]. }
  pose proof (below_one _ D Hone) as Hb.
  assert (E : z == z * pow2 (-63) * inject_Z (2 ^ 63)).
  { rewrite <- Qmult_assoc. assert (E1 : pow2 (-63) * inject_Z (2 ^ 63) == 1) by reflexivity. rewrite E1. ring. }
  rewrite E. assert (E2 : inject_Z (2 ^ 63 - 2 ^ 10) == (1 - pow2 (-53)) * inject_Z (2 ^ 63)) by reflexivity. rewrite E2.
  apply Qmult_le_compat_r; [assumption|vm_compute; discriminate].
Qed.
Lemma smallest_drawn : float_draw (-9223372036854775808).
Proof.
  assert (Dm12 : double (- (1#2))) by (apply (double_intro (-1) (-1)); reflexivity).
  assert (Dm1 : double (- (1))) by (apply (double_intro (-1) 0); reflexivity).
  assert (D63 : double (inject_Z (2 ^ 63))) by (apply (double_intro 1 63); reflexivity).
  assert (Dm63 : double (- inject_Z (2 ^ 63))) by (apply (double_intro (-1) 63); reflexivity).
  assert (Hn : forall x y y', nearest x y -> x == y' -> nearest y' y).
  { intros x y y' [H1 H2] E. split; [assumption|]. intros z Hz. rewrite <- E. apply H2, Hz. }
  exists 0, (- (1#2)), (- (1)), (inject_Z (2 ^ 63)), (- inject_Z (2 ^ 63)).
  split; [apply (double_intro 0 0); reflexivity|]. split; [apply Qle_refl|]. split; [reflexivity|].
  split; [apply (Hn (- (1#2))); [apply double_near; assumption|reflexivity]|].
  split; [apply (Hn (- (1))); [apply double_near; assumption|reflexivity]|].
  split.
  { split; [assumption|]. intros z Hz.
    assert (E : Qabs (inject_Z 9223372036854775806 - inject_Z (2 ^ 63)) == 2) by reflexivity. rewrite E.
    destruct (Qlt_le_dec z (inject_Z (2 ^ 63))) as [Hlt|Hge].
    - pose proof (spacing z Hz Hlt) as Hs. assert (E2 : inject_Z 9223372036854775806 == inject_Z (2 ^ 63 - 2 ^ 10) + 1022) by reflexivity. rewrite E2.
      apply Qabs_case; intros; lra.
    - assert (E2 : inject_Z 9223372036854775806 == inject_Z (2 ^ 63) - 2) by reflexivity. rewrite E2. apply Qabs_case; intros; lra. }
  split; [apply (Hn (- inject_Z (2 ^ 63))); [apply double_near; assumption|ring]|].
  unfold to_int. assert (E : - inject_Z (2 ^ 63) - inject_Z (-9223372036854775808) == 0) by reflexivity. rewrite E. vm_compute. discriminate.
Qed.
