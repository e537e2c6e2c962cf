(** * @cached attributes of rows whose key was just drawn (fields.py:297-328, denorms.py:601-635). *)
From Verif Require Import Base BaseLemmas Schema TrigSet Gen Exec Orm Flush Spec Sessions Hist Check KeyDraw SaveKey KeysApart Cached CachedDb.

Lemma xrun_tail S rand E fn us ca : xrun S rand E fn us ca → ∀ d' d vs, us = d' :: d :: vs → ∃ ca0, xrun S rand E fn (d :: vs) ca0.
Proof.
  induction 1 as [d0 Hd|d0 vs0 ca h ps Hr IH Hl Hps|d0 vs0 ca t c k Hr IH Hc|vs0 ca z Hr IH]; intros d' d vs Heq; [done| |by eapply IH|by eapply IH].
  injection Heq as _ -> ->. by exists ca.
Qed.
Lemma redrawn_current b S rand imm depth E fn d vs h ca t c k w :
  mk_env b S rand imm depth = Ok E → wf_schema S → names_apart S → (∀ i j, rand i = rand j → i = j) →
  xrun S rand E fn (hstep E S d h :: d :: vs) ca → key_cell S t c → redrawn rand (d_rnd d) t c k (hstep E S d h) →
  (cached_read fn ca (hstep E S d h) t c k).1 = Some w → w = fn t c (hstep E S d h) k.
Proof.
  intros HE Hwf Hna Hinj Hr Hc (r & n & Hg & Hn & Hcol) Hw. set (d' := hstep E S d h) in *. clearbody d'.
  destruct (read_since S rand E fn b imm depth HE Hwf Hna Hinj _ _ _ _ _ _ _ Hr Hc Hw) as (z & Hz & l1 & d1 & l2 & Hvs & -> & Hall).
  destruct l1 as [|x l1]; [by injection Hvs as -> _|]. exfalso. injection Hvs as -> Hvs.
  assert (Hd : cellv d t k c = Some (VInt z)).
  { destruct l1 as [|y l1]; injection Hvs as -> _; simpl in Hall; apply Forall_cons in Hall as [_ Hall]; by apply Forall_cons in Hall as [Hall _]. }
  destruct (xrun_tail _ _ _ _ _ _ Hr _ _ _ eq_refl) as [ca0 Hr0].
  destruct (xrun_inv S rand E fn b imm depth HE Hwf Hna Hinj _ _ Hr0) as [[no [N1 _]] _].
  unfold cellv in Hd, Hz. apply fmap_Some in Hd as (r0 & Hg0 & Hv0). rewrite Hg in Hz. injection Hz as Hz.
  destruct (N1 _ _ _ _ Hc Hg0) as [Hlt Hc0]. assert (n = no t c k) by (apply Hinj; congruence). lia.
Qed.
