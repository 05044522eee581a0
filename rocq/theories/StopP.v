(** Stopping the server (C128) and the client (C127) *)
From stdpp Require Import gmap.
From Verif Require Import Base HexM TimeM HeaderM ParamsM GeoM MsgM PacketM FrameM ProgM RingM StateM ProcM ServerM ClientM StopM SpecState SpecStop
  ProgP StateP ProcP ServerP RegP LinkP.

Lemma step_live e w ev : (forall c a, ev <> EAccept c a) -> w_live (step e w ev) ⊆ w_live w.
Proof.
  intros H. unfold step. destruct (w_dead w); [reflexivity|].
  destruct ev as [c a|sl r x|p| |p|p x|p bad ps x|t]; cbn [w_live]; try reflexivity; [destruct (H c a eq_refl)| |].
  - case_bool_decide; [|reflexivity]. destruct (run _ _) as [[[|]|er|] s']; cbn [w_live]; set_solver.
  - case_bool_decide; [|reflexivity]. destruct (run _ _) as [[u|er|] s']; reflexivity.
Qed.
Theorem stopped_server e : forall vs x, let y := servings e vs (serverStop x) in
  sv_open y = false /\ sv_w y = fold_left (step e) (without_accepts vs) (sv_w x) /\ sv_lines y = (sv_lines x + rounds vs)%nat
  /\ w_live (sv_w y) ⊆ w_live (sv_w x).
Proof.
  unfold servings. induction vs as [|v vs IH]; intros x; cbn zeta.
  - cbn. split; [reflexivity|]. split; [reflexivity|]. split; [lia|reflexivity].
  - cbn [fold_left]. destruct v as [r| |ev].
    + change (serving1 e (serverStop x) (VAccept r)) with (serverStop (mkServing false (sv_w x) (S (sv_lines x)))).
      destruct (IH (mkServing false (sv_w x) (S (sv_lines x)))) as (H1 & H2 & H3 & H4). cbn [sv_w sv_lines] in *.
      split; [exact H1|]. split; [exact H2|]. split; [|exact H4]. rewrite H3. cbn [rounds]. lia.
    + exact (IH x).
    + assert (Hev : (exists c a, ev = EAccept c a) \/ forall c a, ev <> EAccept c a) by (destruct ev; [left; eauto|right; discriminate..]).
      destruct Hev as [(c & a & ->)|Hne]; [exact (IH x)|].
      assert (E1 : serving1 e (serverStop x) (VOther ev) = serverStop (mkServing false (step e (sv_w x) ev) (sv_lines x)))
        by (destruct ev; [destruct (Hne c addr eq_refl)|reflexivity..]).
      assert (E2 : without_accepts (VOther ev :: vs) = ev :: without_accepts vs) by (destruct ev; [destruct (Hne c addr eq_refl)|reflexivity..]).
      rewrite E1, E2. destruct (IH (mkServing false (step e (sv_w x) ev) (sv_lines x))) as (H1 & H2 & H3 & H4). cbn [sv_w sv_lines] in *.
      split; [exact H1|]. split; [exact H2|]. split; [exact H3|]. etransitivity; [exact H4|]. apply step_live, Hne.
Qed.

Theorem client_stop e sl s x k : st_sess s !! sl = Some x -> st_conns s !! ss_conn x = Some k ->
  exists s1, run (clientStop sl) s = (Ok tt, s1) /\ s1 = set_conns (<[ss_conn x := mkConn false (cn_out k)]>) s
    /\ (forall w t, run (clientLoop e sl ((Err ErrNetClosed, w) :: t)) s1 = (Ok true, s1))
    /\ (forall m f w, encodePacket (e_o e) m = Ok f -> run (clientSend e sl m w) s1 = (Ok tt, s1)).
Proof.
  intros Hx Hk. set (s1 := set_conns (<[ss_conn x := mkConn false (cn_out k)]>) s).
  assert (Hal : forall f, alter f (ss_conn x) (st_conns s) = <[ss_conn x := f k]> (st_conns s)).
  { intros f. apply map_eq. intros i. destruct (decide (i = ss_conn x)) as [->|Hn].
    - rewrite lookup_alter, lookup_insert, Hk. reflexivity.
    - rewrite lookup_alter_ne, lookup_insert_ne by congruence. reflexivity. }
  assert (Hs : run (clientStop sl) s = (Ok tt, s1)).
  { unfold clientStop. rewrite run_bind. unfold readSess. cbn [run]. rewrite Hx. cbn [run ret]. unfold connClose, wr1. cbn [run ret].
    unfold s1. destruct s; unfold set_conns; cbn in *. rewrite Hal. reflexivity. }
  assert (Hx1 : st_sess s1 !! sl = Some x) by exact Hx.
  assert (Hk1 : st_conns s1 !! ss_conn x = Some (mkConn false (cn_out k))) by (cbn; apply lookup_insert).
  assert (Hsame : forall f, f (mkConn false (cn_out k)) = mkConn false (cn_out k) -> set_conns (alter f (ss_conn x)) s1 = s1).
  { intros f Hf. assert (E : alter f (ss_conn x) (st_conns s1) = st_conns s1).
    { apply map_eq. intros i. destruct (decide (i = ss_conn x)) as [->|Hn].
      - rewrite lookup_alter, Hk1. cbn. rewrite Hf. reflexivity.
      - rewrite lookup_alter_ne by congruence. reflexivity. }
    destruct s1; unfold set_conns; cbn in *. rewrite E. reflexivity. }
  exists s1. split; [exact Hs|]. split; [reflexivity|]. split.
  - intros w t. cbn [clientLoop]. rewrite run_bind. unfold readSess. cbn [run]. rewrite Hx1. reflexivity.
  - intros m f w Hf. unfold clientSend. rewrite run_bind. unfold readSess at 1. cbn [run]. rewrite Hx1. cbn [run ret].
    rewrite run_bindR. unfold processConnWrite. rewrite run_bind, Hf. cbn [lift run ret].
    unfold connSend. cbn [run]. rewrite Hk1. cbn [cn_open run fail fst snd]. rewrite Hsame by reflexivity.
    unfold clientStop. rewrite run_bind. unfold readSess. cbn [run]. rewrite Hx1. cbn [run ret]. unfold connClose, wr1. cbn [run ret].
    rewrite Hsame by reflexivity. reflexivity.
Qed.

Lemma client_keeps e sl ins : forall s x k, consistent s -> st_sess s !! sl = Some x -> st_conns s !! ss_conn x = Some k ->
  exists out, st_conns (snd (run (clientLoop e sl ins) s)) !! ss_conn x = Some (mkConn (cn_open k) (cn_out k ++ out))
    /\ exists x', st_sess (snd (run (clientLoop e sl ins) s)) !! sl = Some x' /\ ss_conn x' = ss_conn x.
Proof.
  induction ins as [|[r w] t IH]; intros s x k C Hx Hk.
  - exists []. rewrite app_nil_r. split; [destruct k; exact Hk|]. exists x. split; [exact Hx|reflexivity].
  - cbn [clientLoop]. rewrite run_bind. unfold readSess. cbn [run]. rewrite Hx. cbn [run ret].
    rewrite run_bindR. destruct (serveOne_spec e sl r w s x k C Hx Hk) as (q & s1 & E & K & l & Hl & _).
    assert (Es : snd (run (processConnRead e sl (ss_conn x) r w) s) = s1).
    { revert E. unfold serveOne. rewrite run_bind. unfold readSess. cbn [run]. rewrite Hx. cbn [run ret].
      rewrite run_bindR. destruct (run (processConnRead e sl (ss_conn x) r w) s) as [[u|er|] s2]; cbn; congruence. }
    rewrite Es. destruct (same_sess _ _ (fk_sess _ _ _ _ K) sl x Hx) as (x1 & Hx1 & _ & Hcx).
    assert (Hr : exists out, st_conns (snd (run (clientLoop e sl t) s1)) !! ss_conn x = Some (mkConn (cn_open k) (cn_out k ++ out))
                  /\ exists x', st_sess (snd (run (clientLoop e sl t) s1)) !! sl = Some x' /\ ss_conn x' = ss_conn x).
    { rewrite <- Hcx in Hl. destruct (IH s1 x1 _ (fk_ok _ _ _ _ K) Hx1 Hl) as (out & Ho & Hs). rewrite Hcx in Ho, Hs.
      cbn [cn_open cn_out] in Ho. rewrite <- app_assoc in Ho. eauto. }
    destruct (fst _) as [u|er|]; cbn [run ret panic snd]; [exact Hr| |eauto 6].
    destruct (clientStops er); cbn [run ret snd]; [eauto 6|exact Hr].
Qed.
Theorem client_stays e sl ins s x k q s1 : consistent s -> st_sess s !! sl = Some x -> st_conns s !! ss_conn x = Some k -> cn_open k = true ->
  run (clientLoop e sl ins) s = (q, s1) ->
  exists out, st_conns s1 !! ss_conn x = Some (mkConn true (cn_out k ++ out))
    /\ forall m f, encodePacket (e_o e) m = Ok f ->
         exists s2, run (clientSend e sl m None) s1 = (Ok tt, s2) /\ st_conns s2 !! ss_conn x = Some (mkConn true (cn_out k ++ out ++ [f])).
Proof.
  intros C Hx Hk Ho E. destruct (client_keeps e sl ins s x k C Hx Hk) as (out & H & x' & Hx' & Hc). rewrite E in H, Hx'. rewrite Ho in H. cbn [snd] in H, Hx'.
  exists out. split; [exact H|]. intros m f Hf. eexists. split.
  - unfold clientSend. rewrite run_bind. unfold readSess. cbn [run]. rewrite Hx'. cbn [run ret]. rewrite Hc.
    rewrite run_bindR. unfold processConnWrite. rewrite run_bind, Hf. cbn [lift run ret].
    unfold connSend. cbn [run]. rewrite H. cbn [cn_open run ret fst snd]. reflexivity.
  - cbn. rewrite lookup_alter, H. cbn. rewrite <- app_assoc. reflexivity.
Qed.
