(** Proofs about DeviceParams.Update *)
From Coq Require Import ZifyBool ZifyNat ZifyN Sorted.
From Verif Require Import Base HexM ParamsM SpecCodec.
Local Open Scope N_scope.

Definition keyed (m : list (N * param)) : Prop := Forall (fun e => fst e = p_id (snd e)) m.
Definition sorted (m : list (N * param)) : Prop := StronglySorted (fun a b => fst a < fst b) m.

Lemma pmap_set_in m k p x : In x (pmap_set m k p) -> x = (k, p) \/ In x m.
Proof.
  induction m as [|[i q] m IH]; cbn [pmap_set]; [intros [<-|[]]; auto|].
  destruct (i =? k); [intros [<-|H]; cbn; auto|]. destruct (k <? i).
  - intros [<-|H]; cbn; auto.
  - intros [<-|H]; cbn; auto. destruct (IH H); auto.
Qed.

Lemma pmap_set_sorted m k p : sorted m -> sorted (pmap_set m k p).
Proof.
  unfold sorted. induction m as [|[i q] m IH]; cbn [pmap_set]; intros H; [repeat constructor|].
  apply StronglySorted_inv in H as [Hs Hf].
  destruct (N.eqb_spec i k) as [->|Hne]; [constructor; assumption|].
  destruct (N.ltb_spec k i).
  - constructor; [constructor; assumption|]. constructor; [assumption|].
    eapply Forall_impl; [|exact Hf]. cbn. intros; lia.
  - constructor; [apply IH; assumption|]. apply Forall_forall. intros x Hx.
    apply pmap_set_in in Hx as [->|Hx]; [cbn; lia|]. rewrite Forall_forall in Hf. now apply Hf.
Qed.

Lemma pmap_set_keyed m k p : k = p_id p -> keyed m -> keyed (pmap_set m k p).
Proof.
  intros Hk H. apply Forall_forall. intros x Hx. apply pmap_set_in in Hx as [->|Hx]; [exact Hk|].
  unfold keyed in H. rewrite Forall_forall in H. now apply H.
Qed.

Lemma lookup_pmap_set m k p j : sorted m ->
  lookupN (pmap_set m k p) j = if k =? j then Some p else lookupN m j.
Proof.
  induction m as [|[i q] m IH]; cbn [pmap_set lookupN]; intros H; [reflexivity|].
  apply StronglySorted_inv in H as [Hs Hf].
  destruct (N.eqb_spec i k) as [->|Hne]; cbn [lookupN].
  - destruct (k =? j); reflexivity.
  - destruct (N.ltb_spec k i); cbn [lookupN].
    + reflexivity.
    + rewrite IH by assumption. destruct (N.eqb_spec i j), (N.eqb_spec k j); congruence.
Qed.

Lemma fold_set l : forall m, sorted m -> keyed m ->
  let m' := fold_left (fun m q => pmap_set m (p_id q) q) l m in
  sorted m' /\ keyed m' /\
  forall j, lookupN m' j = match last_with j l with Some q => Some q | None => lookupN m j end.
Proof.
  unfold last_with. induction l as [|p l IH] using rev_ind; intros m Hs Hk; cbv zeta.
  - cbn. auto.
  - rewrite fold_left_app. cbn [fold_left]. destruct (IH m Hs Hk) as (Hs' & Hk' & HL).
    split; [now apply pmap_set_sorted|]. split; [now apply pmap_set_keyed|].
    intros j. rewrite lookup_pmap_set by assumption. rewrite rev_unit. cbn [find].
    destruct (p_id p =? j); [reflexivity|apply HL].
Qed.

Lemma fold_update l : forall m, sorted m -> keyed m ->
  let m' := fold_left (fun m q => match lookupN m (p_id q) with
                                 | Some _ => pmap_set m (p_id q) q
                                 | None => m
                                 end) l m in
  sorted m' /\ keyed m' /\
  forall j, lookupN m' j = match lookupN m j with
                           | None => None
                           | Some q => match last_with j l with Some q' => Some q' | None => Some q end
                           end.
Proof.
  unfold last_with. induction l as [|p l IH] using rev_ind; intros m Hs Hk; cbv zeta.
  - cbn. split; [auto|split; [auto|]]. intros j. destruct (lookupN m j); reflexivity.
  - rewrite fold_left_app. cbn [fold_left]. destruct (IH m Hs Hk) as (Hs' & Hk' & HL).
    set (m' := fold_left _ l m) in *.
    destruct (lookupN m' (p_id p)) eqn:E.
    + split; [now apply pmap_set_sorted|]. split; [now apply pmap_set_keyed|].
      intros j. rewrite lookup_pmap_set by assumption. rewrite rev_unit. cbn [find].
      destruct (N.eqb_spec (p_id p) j) as [<-|]; [|apply HL].
      rewrite HL in E. destruct (lookupN m (p_id p)); [reflexivity|discriminate].
    + split; [assumption|]. split; [assumption|]. intros j. rewrite HL, rev_unit. cbn [find].
      destruct (N.eqb_spec (p_id p) j) as [<-|]; [|reflexivity].
      rewrite HL in E. destruct (lookupN m (p_id p)) as [q|]; [|reflexivity].
      destruct (find (fun q0 => p_id q0 =? p_id p) (rev l)); discriminate.
Qed.

Lemma keyed_find m j : keyed m -> sorted m -> find (fun q => p_id q =? j) (map snd m) = lookupN m j.
Proof.
  intros Hk _. induction m as [|[i q] m IH]; [reflexivity|]. cbn. inversion Hk; subst. cbn in H1. subst i.
  destruct (p_id q =? j); [reflexivity|]. now apply IH.
Qed.

Lemma keyed_sorted m : keyed m -> sorted m -> StronglySorted (fun a b => p_id a < p_id b) (map snd m).
Proof.
  intros Hk Hs. induction m as [|[i q] m IH]; [constructor|]. cbn [map snd].
  inversion Hk; subst. apply StronglySorted_inv in Hs as [Hs Hf].
  constructor; [now apply IH|]. apply Forall_forall. intros x Hx. apply in_map_iff in Hx as ([i' q'] & <- & Hin).
  rewrite Forall_forall in Hf. unfold keyed in H2. rewrite Forall_forall in H2.
  specialize (Hf _ Hin). specialize (H2 _ Hin). cbn in *. lia.
Qed.

Lemma paramsUpdate_spec p newp :
  let r := paramsUpdate p newp in
  dp_phone r = dp_phone p /\ dp_cnt r = N.of_nat (length (dp_list r)) mod 256
  /\ StronglySorted (fun a b => p_id a < p_id b) (dp_list r)
  /\ forall id, find (fun q => p_id q =? id) (dp_list r) =
       match last_with id (dp_list p) with
       | None => None
       | Some q => match last_with id (dp_list newp) with Some q' => Some q' | None => Some q end
       end.
Proof.
  cbv zeta. unfold paramsUpdate. cbn [dp_phone dp_cnt dp_list].
  destruct (fold_set (dp_list p) [] ltac:(constructor) ltac:(constructor)) as (Hs & Hk & HL).
  cbv zeta in *. set (m0 := fold_left _ (dp_list p) []) in *.
  destruct (fold_update (dp_list newp) m0 Hs Hk) as (Hs' & Hk' & HL'). cbv zeta in *.
  set (m1 := fold_left _ (dp_list newp) m0) in *.
  split; [reflexivity|]. split; [now rewrite map_length|]. split; [now apply keyed_sorted|].
  intros id. rewrite keyed_find by assumption. rewrite HL', HL. cbn.
  destruct (last_with id (dp_list p)); reflexivity.
Qed.
