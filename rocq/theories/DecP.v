(** Proofs about decimal notation *)
From Verif Require Import Base HexM TimeM HashM HeaderM ParamsM MsgM PacketM SpecCodec.
Local Open Scope N_scope.

Lemma dec_app t c : dec_value (t ++ [c]) = 10 * dec_value t + (c - 48).
Proof. unfold dec_value. rewrite fold_left_app. reflexivity. Qed.
Lemma dec_head c t : 49 <= c <= 57 -> Forall (fun c => 48 <= c <= 57) t ->
  10 ^ N.of_nat (length t) <= dec_value (c :: t).
Proof.
  intros Hc. induction t as [|x t IH] using rev_ind; intros HF; [cbn; lia|].
  apply Forall_app in HF as (HF & Hx). inversion Hx; subst.
  change (c :: t ++ [x]) with ((c :: t) ++ [x]). rewrite dec_app, app_length. cbn [length].
  replace (N.of_nat (length t + 1)) with (N.succ (N.of_nat (length t))) by lia.
  rewrite N.pow_succ_r'. specialize (IH HF). nia.
Qed.
Lemma itoa_fuel_dec : forall s fuel n acc, decimal s n -> (length s <= fuel)%nat -> itoa_fuel fuel n acc = s ++ acc.
Proof.
  induction s as [|c t IH] using rev_ind; intros fuel n acc (Hne & HF & Hz & Hv) Hl; [congruence|].
  rewrite app_length in Hl. cbn [length] in Hl. destruct fuel as [|fuel]; [lia|].
  apply Forall_app in HF as (HF & Hx). inversion Hx as [|? ? Hc _]; subst. rewrite dec_app. cbn [itoa_fuel].
  set (v := dec_value t).
  assert (E1 : (10 * v + (c - 48)) mod 10 = c - 48).
  { replace (10 * v + (c - 48)) with ((c - 48) + v * 10) by lia. rewrite N.mod_add by lia. apply N.mod_small. lia. }
  assert (E2 : (10 * v + (c - 48)) / 10 = v).
  { replace (10 * v + (c - 48)) with ((c - 48) + v * 10) by lia. rewrite N.div_add by lia.
    rewrite N.div_small by lia. lia. }
  rewrite E1, E2. replace (48 + (c - 48)) with c by lia. rewrite <- app_assoc. cbn [app].
  destruct t as [|y t'].
  - replace (10 * v + (c - 48) <? 10) with true; [reflexivity|]. symmetry. apply N.ltb_lt.
    change v with 0. lia.
  - cbn [hd app] in Hz. inversion HF as [|? ? Hy HF']; subst.
    assert (y <> 48). { intros E. specialize (Hz E). destruct t'; discriminate. }
    assert (Hv : 1 <= v). { pose proof (dec_head y t' ltac:(lia) HF'). unfold v.
      pose proof (N.pow_nonzero 10 (N.of_nat (length t')) ltac:(lia)). lia. }
    replace (10 * v + (c - 48) <? 10) with false by (symmetry; apply N.ltb_ge; lia).
    apply IH; [|lia]. split; [discriminate|]. split; [exact HF|]. split; [cbn; lia|reflexivity].
Qed.
Lemma decimal_itoa s n : n < 10 ^ 20 -> decimal s n -> s = itoa n.
Proof.
  intros Hn H. unfold itoa. rewrite <- (app_nil_r s). symmetry. apply itoa_fuel_dec; [exact H|].
  destruct H as (Hne & HF & Hz & Hv). destruct s as [|c t]; [cbn; lia|]. inversion HF; subst.
  destruct (N.eq_dec c 48) as [->|Hc].
  - specialize (Hz eq_refl). injection Hz as ->. cbn. lia.
  - pose proof (dec_head c t ltac:(lia) ltac:(assumption)).
    assert (Hp : 10 ^ N.of_nat (length t) < 10 ^ 20) by lia.
    apply N.pow_lt_mono_r_iff in Hp; [|lia]. cbn [length]. lia.
Qed.
Lemma itoa_fuel_ok fuel : forall n, n < 10 ^ N.of_nat fuel -> (0 < fuel)%nat ->
  exists s, decimal s n /\ forall acc, itoa_fuel fuel n acc = s ++ acc.
Proof.
  induction fuel as [|fuel IH]; intros n Hn Hf; [lia|]. cbn [itoa_fuel].
  pose proof (N.mod_upper_bound n 10 ltac:(lia)) as Hm.
  assert (Hm2 : 48 <= 48 + n mod 10 <= 57) by (split; [apply N.le_add_r|generalize dependent (n mod 10); intros; lia]).
  destruct (n <? 10) eqn:E.
  - apply N.ltb_lt in E. exists [48 + n mod 10]. rewrite N.mod_small by exact E. split; [|reflexivity].
    split; [discriminate|]. split; [constructor; [cbv beta; lia|constructor]|]. split; [cbn; intros ->; reflexivity|].
    unfold dec_value. cbn [fold_left]. lia.
  - apply N.ltb_ge in E. destruct fuel as [|fuel]; [cbn in Hn; lia|].
    assert (Hd : n / 10 < 10 ^ N.of_nat (S fuel)).
    { apply N.div_lt_upper_bound; [lia|]. rewrite <- N.pow_succ_r'. replace (N.succ (N.of_nat (S fuel))) with (N.of_nat (S (S fuel))) by lia. exact Hn. }
    destruct (IH (n / 10) Hd ltac:(lia)) as (s & (H1 & H2 & H3 & H4) & Ha).
    exists (s ++ [48 + n mod 10]). split; [|intros acc; rewrite Ha, <- app_assoc; reflexivity].
    split; [destruct s; discriminate|]. split; [apply Forall_app; split; [exact H2|]; constructor; [exact Hm2|constructor]|].
    split.
    + destruct s as [|c t]; [congruence|]. cbn [hd app]. intros Hc. specialize (H3 Hc). injection H3 as -> ->.
      exfalso. unfold dec_value in H4. cbn [fold_left] in H4. pose proof (N.div_mod n 10 ltac:(lia)). lia.
    + rewrite dec_app, H4. pose proof (N.div_mod n 10 ltac:(lia)). lia.
Qed.
Lemma itoa_decimal n : n < 10 ^ 20 -> decimal (itoa n) n.
Proof.
  intros Hn. destruct (itoa_fuel_ok 20 n Hn ltac:(lia)) as (s & Hs & Ha). unfold itoa.
  rewrite Ha, app_nil_r. exact Hs.
Qed.

Lemma dec_zeros k s : dec_value (repeat 48 k ++ s) = dec_value s.
Proof. unfold dec_value. induction k as [|k IH]; [reflexivity|]. cbn [repeat app fold_left]. exact IH. Qed.
Lemma dec_bound s : Forall (fun c => 48 <= c <= 57) s -> dec_value s < 10 ^ N.of_nat (length s).
Proof.
  induction s as [|c s IH] using rev_ind; intros HF; [cbn; lia|].
  apply Forall_app in HF as (HF & Hx). inversion Hx; subst. rewrite dec_app, app_length. cbn [length].
  replace (N.of_nat (length s + 1)) with (N.succ (N.of_nat (length s))) by lia. rewrite N.pow_succ_r'.
  specialize (IH HF). lia.
Qed.
Lemma dec_inj s : forall t, length s = length t -> Forall (fun c => 48 <= c <= 57) s -> Forall (fun c => 48 <= c <= 57) t ->
  dec_value s = dec_value t -> s = t.
Proof.
  induction s as [|c s IH] using rev_ind; intros t Hl Hs Ht E.
  - destruct t; [reflexivity|discriminate].
  - destruct t as [|d t] using rev_ind; [rewrite app_length in Hl; cbn in Hl; lia|]. clear IHt.
    rewrite !app_length in Hl. cbn [length] in Hl.
    apply Forall_app in Hs as (Hs & Hc). apply Forall_app in Ht as (Ht & Hd). inversion Hc; inversion Hd; subst.
    rewrite !dec_app in E. assert (dec_value s = dec_value t) by lia. assert (c = d) by lia.
    subst d. f_equal. apply IH; auto. lia.
Qed.
Lemma digits_Forall s : digits s = true <-> Forall (fun c => 48 <= c <= 57) s.
Proof.
  unfold digits. rewrite forallb_forall, Forall_forall. split; intros H x Hx; specialize (H x Hx); cbv beta in *;
    rewrite Bool.andb_true_iff, !N.leb_le in *; exact H.
Qed.
Lemma dec_padded_pad0 w n s : n < 10 ^ 20 -> (0 < w)%nat -> dec_padded w n s <-> s = pad0 w (itoa n).
Proof.
  intros Hn Hw. pose proof (itoa_decimal n Hn) as (Hne & HF & Hz & Hv).
  assert (Hlen : forall m, (0 < m)%nat -> n < 10 ^ N.of_nat m -> (length (itoa n) <= m)%nat).
  { intros m Hm Hb. destruct (itoa n) as [|c t]; [congruence|]. inversion HF as [|? ? Hc Ht]; subst.
    destruct (N.eq_dec c 48) as [->|Hc']; [specialize (Hz eq_refl); injection Hz as ->; cbn; lia|].
    pose proof (dec_head c t ltac:(lia) Ht).
    assert (Hp : 10 ^ N.of_nat (length t) < 10 ^ N.of_nat m) by lia.
    apply N.pow_lt_mono_r_iff in Hp; [|lia]. cbn [length]. lia. }
  split.
  - intros (Hd & Hs & Hl & Hh). apply digits_Forall in Hd.
    destruct (Nat.eq_dec w (length s)) as [E|E].
    + pose proof (dec_bound s Hd) as Hb. rewrite Hs in Hb.
      specialize (Hlen w Hw). rewrite E in Hlen at 1. specialize (Hlen Hb).
      apply dec_inj; [unfold pad0; rewrite app_length, repeat_length; lia|exact Hd| |].
      * unfold pad0. apply Forall_app. split; [|exact HF]. apply Forall_forall. intros x Hx.
        apply repeat_spec in Hx. lia.
      * unfold pad0. rewrite dec_zeros. congruence.
    + assert (Hdec : decimal s n).
      { split; [intros ->; cbn [length] in *; lia|]. split; [exact Hd|]. split; [|exact Hs].
        intros E'. exfalso. apply Hh; [lia|]. destruct s; [cbn [length] in *; lia|exact E']. }
      rewrite <- (decimal_itoa s n Hn Hdec). unfold pad0. replace (w - length s)%nat with 0%nat by lia. reflexivity.
  - intros ->. unfold pad0. split; [|split; [|split]].
    + apply digits_Forall, Forall_app. split; [|exact HF]. apply Forall_forall. intros x Hx.
      apply repeat_spec in Hx. lia.
    + rewrite dec_zeros. exact Hv.
    + rewrite app_length, repeat_length. lia.
    + rewrite app_length, repeat_length. intros Hl. replace (w - length (itoa n))%nat with 0%nat by lia.
      cbn [repeat app]. intros E. destruct (itoa n) as [|c t]; [cbn [length] in *; lia|]. cbn [hd] in E. subst c.
      specialize (Hz eq_refl). injection Hz as ->. cbn [length] in Hl. lia.
Qed.
Lemma area_iff o prov city name : prov < 65536 -> city < 65536 ->
  area o prov city name <-> name = regionName o (pad0 2 (itoa prov) ++ pad0 4 (itoa city)).
Proof.
  intros Hp Hc. unfold area. split.
  - intros (p & c & H1 & H2 & ->). apply dec_padded_pad0 in H1; [|lia|lia]. apply dec_padded_pad0 in H2; [|lia|lia].
    subst. reflexivity.
  - intros ->. exists (pad0 2 (itoa prov)), (pad0 4 (itoa city)).
    split; [apply dec_padded_pad0; [lia|lia|reflexivity]|].
    split; [apply dec_padded_pad0; [lia|lia|reflexivity]|]. reflexivity.
Qed.
Lemma argKind_type id : argKind id = paramType id.
Proof.
  destruct (id <? 0x200) eqn:E.
  - apply N.ltb_lt in E.
    assert (H : forallb (fun n => match argKind (N.of_nat n), paramType (N.of_nat n) with
                                  | Some PByte, Some PByte | Some PWord, Some PWord | Some PDword, Some PDword
                                  | Some PBytes, Some PBytes | Some PString, Some PString | Some PGBK, Some PGBK
                                  | None, None => true | _, _ => false end) (seq 0 0x200) = true) by (vm_compute; reflexivity).
    rewrite forallb_forall in H. specialize (H (N.to_nat id)). rewrite N2Nat.id in H.
    specialize (H ltac:(apply in_seq; lia)).
    destruct (argKind id) as [[]|], (paramType id) as [[]|]; congruence.
  - apply N.ltb_ge in E.
    assert (H1 : paramType id = None).
    { unfold paramType, between.
      repeat match goal with |- context [id <=? ?c] => replace (id <=? c) with false by (symmetry; apply N.leb_gt; lia) end.
      repeat match goal with |- context [id =? ?c] => replace (id =? c) with false by (symmetry; apply N.eqb_neq; lia) end.
      rewrite !Bool.andb_false_r. reflexivity. }
    rewrite H1. unfold argKind.
    assert (H : forallb (fun x => fst x <? 0x200) argTable = true) by (vm_compute; reflexivity).
    induction argTable as [|[i a] t IH]; [reflexivity|]. cbn [lookupN forallb fst] in *.
    apply Bool.andb_true_iff in H as (Hi & H). apply N.ltb_lt in Hi.
    replace (i =? id) with false by (symmetry; apply N.eqb_neq; lia). exact (IH H).
Qed.
