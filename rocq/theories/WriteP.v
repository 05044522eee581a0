(** Proofs about what goroutines write to connections (C113) *)
From stdpp Require Import gmap.
From Verif Require Import Base HexM TimeM HashM HeaderM ParamsM GeoM MsgM PacketM FrameM ProgM RingM StateM ProcM ServerM ConcM
  SpecCodec SpecState SpecConc SpecWrite FrameP ProgP ProcP ConcP EffectP ReplyP LinkP.
Local Open Scope N_scope.

(** * Programs that write nothing, and what they return *)
Inductive lv {A} (P : res A -> Prop) : sp A -> Prop :=
| lv_ret' r : P r -> lv P (Ret r)
| lv_act a f k : (forall s c, sent (f s) c = sent s c) -> (forall s, lv P (k s)) -> lv P (Act a f k).
Definition tt_ {A} : res A -> Prop := fun _ => True.
Lemma lv_bindR {A B} (P : res A -> Prop) (P' : res B -> Prop) (p : sp A) g :
  lv P p -> (forall r, P r -> lv P' (g r)) -> lv P' (pbindR p g).
Proof. intros H Hg. induction H as [r Hr|a f k Hf _ IH]; cbn; [apply Hg; exact Hr|]. constructor; [exact Hf|exact IH]. Qed.
Definition okP {A} (P : A -> Prop) : res A -> Prop := fun r => match r with Ok a => P a | _ => True end.
Lemma lv_bind {A B} (P : A -> Prop) (P' : B -> Prop) (p : sp A) g :
  lv (okP P) p -> (forall a, P a -> lv (okP P') (g a)) -> lv (okP P') (pbind p g).
Proof. intros H Hg. eapply lv_bindR; [exact H|]. intros [a|er|] Hr; [apply Hg; exact Hr|constructor; exact Logic.I..]. Qed.
Definition yes {A} : A -> Prop := fun _ => True.
Lemma lv_bind_ {A B} (P' : B -> Prop) (p : sp A) g : lv (okP yes) p -> (forall a, lv (okP P') (g a)) -> lv (okP P') (pbind p g).
Proof. intros H Hg. eapply lv_bind; [exact H|]. intros a _. apply Hg. Qed.
Lemma lv_ret {A} (P : A -> Prop) a : P a -> lv (okP P) (ret a).
Proof. intros H. constructor. exact H. Qed.
Lemma lv_fail {A} (P : A -> Prop) e : lv (okP P) (fail e).
Proof. constructor. exact Logic.I. Qed.
Lemma lv_panic {A} (P : A -> Prop) : lv (okP P) panic.
Proof. constructor. exact Logic.I. Qed.
Lemma lv_lift {A} (P : A -> Prop) r : (forall a, r = Ok a -> P a) -> lv (okP P) (lift r).
Proof. intros H. constructor. destruct r; cbn; [apply H; reflexivity|exact Logic.I..]. Qed.
Lemma lv_zoom {B A} (get : st -> B) set (p : prog B A) : (forall r s c, sent (set r s) c = sent s c) -> lv (okP yes) (zoom get set p).
Proof.
  intros H. induction p as [r|a f k IH]; cbn; [constructor; destruct r; exact Logic.I|]. constructor; [|intros s; apply IH].
  intros s c. apply H.
Qed.
Ltac lvs := repeat first
  [ apply lv_bind_; [|intros] | apply lv_fail | apply lv_panic | apply lv_ret; exact Logic.I | apply lv_lift; intros; exact Logic.I
  | match goal with
    | |- lv _ (match ?x with _ => _ end) => destruct x
    | |- lv _ (if ?x then _ else _) => destruct x
    | |- lv _ (let _ := _ in _) => cbv zeta
    | |- lv _ (Act _ _ _) => constructor; [|intros]
    | |- lv _ (Ret _) => constructor; exact Logic.I
    | |- forall (s : st) (c : nat), sent _ c = _ => intros ? ?; reflexivity
    end ].
Lemma lv_getNow : lv (okP yes) getNow. Proof. unfold getNow, rd1. lvs. Qed.
Lemma lv_readConst l : lv (okP yes) (readConst l). Proof. unfold readConst. lvs. Qed.
Lemma lv_readDev l : lv (okP yes) (readDev l). Proof. unfold readDev. lvs. Qed.
Lemma lv_writeDev l f : lv (okP yes) (writeDev l f). Proof. unfold writeDev, wr1. lvs. Qed.
Lemma lv_allocDev d : lv (okP yes) (allocDev d). Proof. unfold allocDev. lvs. Qed.
Lemma lv_byPlate q : lv (okP yes) (getDeviceByPlate q). Proof. unfold getDeviceByPlate, rd1. lvs. Qed.
Lemma lv_byPhone q : lv (okP yes) (getDeviceByPhone q). Proof. unfold getDeviceByPhone, rd1. lvs. Qed.
Lemma lv_cacheDevice l : lv (okP yes) (cacheDevice l).
Proof. unfold cacheDevice, wr1. lvs. intros s c. destruct (st_devs s !! l); reflexivity. Qed.
Lemma lv_delDevice ph : lv (okP yes) (delDeviceByPhone ph).
Proof. unfold delDeviceByPhone, wr1. lvs. intros s c. destruct (st_byPhone s !! ph) as [l|]; [|reflexivity]. destruct (st_devs s !! l); reflexivity. Qed.
Lemma lv_getRing ph : lv (okP yes) (getGeoRingByPhone ph).
Proof. unfold getGeoRingByPhone. lvs. intros s c. destruct (st_geo s !! ph); reflexivity. Qed.
Lemma lv_onRing {A} l (p : prog _ A) : lv (okP yes) (onRing l p).
Proof. apply lv_zoom. reflexivity. Qed.
Lemma lv_delGeo ph : lv (okP yes) (delGeoByPhone ph). Proof. unfold delGeoByPhone, wr1. lvs. Qed.
Lemma lv_getParams ph : lv (okP yes) (getDeviceParamsByPhone ph). Proof. unfold getDeviceParamsByPhone, rd1. lvs. Qed.
Lemma lv_cacheParams d : lv (okP yes) (cacheDeviceParams d). Proof. unfold cacheDeviceParams, wr1. lvs. Qed.
Lemma lv_cacheSegment x : lv (okP yes) (cacheSegment x). Proof. unfold cacheSegment. cbv zeta. lvs. Qed.
Lemma lv_getSession i : lv (okP yes) (getSession i). Proof. unfold getSession, rd1. lvs. Qed.
Lemma lv_clearSession i : lv (okP yes) (clearSession i). Proof. unfold clearSession, wr1. lvs. Qed.
Lemma lv_readSess l : lv (okP yes) (readSess l). Proof. unfold readSess. lvs. Qed.
Lemma lv_nextSerial l : lv (okP yes) (nextSerial l). Proof. apply lv_zoom. reflexivity. Qed.
Lemma lv_timerAdd ph : lv (okP yes) (timerAdd ph). Proof. unfold timerAdd, wr1. lvs. Qed.
Lemma lv_timerCancel ph : lv (okP yes) (timerCancel ph). Proof. unfold timerCancel, wr1. lvs. Qed.
Lemma lv_lock m : lv (okP yes) (lock m). Proof. unfold lock, wr1. lvs. Qed.
Lemma lv_unlock m : lv (okP yes) (unlock m). Proof. unfold unlock, wr1. lvs. Qed.
Lemma lv_connClose c : lv (okP yes) (connClose c).
Proof.
  unfold connClose, wr1. lvs. intros s c'. unfold sent. cbn. destruct (decide (c' = c)) as [->|Hn].
  - rewrite lookup_alter. destruct (st_conns s !! c); reflexivity.
  - rewrite lookup_alter_ne by congruence. reflexivity.
Qed.
Ltac lvp := repeat match goal with
  | |- lv _ (pbind _ _) => apply lv_bind_; [|intros]
  | |- lv _ (fail _) => apply lv_fail
  | |- lv _ panic => apply lv_panic
  | |- lv (okP yes) (lift _) => apply lv_lift; intros; exact Logic.I
  | |- lv (okP yes) getNow => apply lv_getNow
  | |- lv (okP yes) (readConst _) => apply lv_readConst
  | |- lv (okP yes) (readDev _) => apply lv_readDev
  | |- lv (okP yes) (writeDev _ _) => apply lv_writeDev
  | |- lv (okP yes) (allocDev _) => apply lv_allocDev
  | |- lv (okP yes) (getDeviceByPlate _) => apply lv_byPlate
  | |- lv (okP yes) (getDeviceByPhone _) => apply lv_byPhone
  | |- lv (okP yes) (cacheDevice _) => apply lv_cacheDevice
  | |- lv (okP yes) (delDeviceByPhone _) => apply lv_delDevice
  | |- lv (okP yes) (getGeoRingByPhone _) => apply lv_getRing
  | |- lv (okP yes) (onRing _ _) => apply lv_onRing
  | |- lv (okP yes) (delGeoByPhone _) => apply lv_delGeo
  | |- lv (okP yes) (getDeviceParamsByPhone _) => apply lv_getParams
  | |- lv (okP yes) (cacheDeviceParams _) => apply lv_cacheParams
  | |- lv (okP yes) (cacheSegment _) => apply lv_cacheSegment
  | |- lv (okP yes) (getSession _) => apply lv_getSession
  | |- lv (okP yes) (clearSession _) => apply lv_clearSession
  | |- lv (okP yes) (readSess _) => apply lv_readSess
  | |- lv (okP yes) (nextSerial _) => apply lv_nextSerial
  | |- lv (okP yes) (timerAdd _) => apply lv_timerAdd
  | |- lv (okP yes) (timerCancel _) => apply lv_timerCancel
  | |- lv (okP yes) (connClose _) => apply lv_connClose
  | |- lv (okP yes) (lock _) => apply lv_lock
  | |- lv (okP yes) (unlock _) => apply lv_unlock
  | |- lv _ (match ?x with _ => _ end) => destruct x
  | |- lv _ (let _ := _ in _) => cbv zeta
  | |- lv _ (hasPlate _) => unfold hasPlate
  | |- lv _ (hasPhone _) => unfold hasPhone
  | |- lv _ (timerRegister _) => unfold timerRegister
  | |- lv (okP yes) (ret _) => apply lv_ret; exact Logic.I
  | |- lv (okP yes) (Ret _) => constructor; exact Logic.I
  end.
Lemma lv_handler e sl inc out : lv (okP (filled out)) (handler e sl inc out).
Proof.
  unfold handler, process0002, process0003, process0100, process0102, process0200, process8100, process8103,
    process8104, process9205, set8100.
  destruct (m_body inc); lvp.
  all: apply lv_ret; try apply filled_same.
  all: destruct out as [h b]; cbn [m_hdr m_body]; split; destruct b; cbn [m_hdr m_body]; eauto 8.
Qed.
Lemma filled_reply e p ik k inc now now' out m : lookupN optionTable (h_id (pk_hdr p)) = Some (ik, Some k) ->
  msgDecode (e_o e) now ik p = Ok inc -> genOutgoing now' k inc = Ok (Some out) -> filled out m ->
  fragment (pk_hdr p) && negb (pk_segdone p) = false -> reply_to p m.
Proof.
  intros Ht Hd Hg (Fh & Fb) Hf. unfold reply_to. rewrite Hf. destruct (msgDecode_ok _ _ _ _ _ Hd) as (Hh & Hk).
  destruct inc as [h b]. cbn [m_hdr m_body] in Hh, Hk. subst h ik. apply lookupN_In in Ht. destruct m as [mh mb]. cbn [m_hdr m_body] in *.
  assert (Hcode : forall d, exists id plate phone, is_code id plate phone (genAuthCode d)).
  { intros d. exists (d_id d), (d_plate d), (d_phone d). apply code_iff. reflexivity. }
  destruct Ht as [Ht|[Ht|[Ht|[Ht|[Ht|[Ht|[Ht|[Ht|[Ht|[Ht|[Ht|[Ht|[Ht|[]]]]]]]]]]]]]];
    try discriminate Ht; injection Ht as Hid Hk <-;
    destruct b; try discriminate Hk; cbn in Hg; injection Hg as <-; cbn [m_hdr m_body] in *; subst mh.
  all: try (destruct Fb as (r1 & ->)); try (destruct Fb as (r1 & c1 & -> & [->|(d0 & ->)])); try (destruct Fb as (i1 & w1 & ->));
       try subst mb; cbn [h_id hdr_set_id]; rewrite <- ?Hid; (split; [reflexivity|]); cbn [In]; intuition.
Qed.
Definition rep (p : packet) : option msg -> Prop := fun o => match o with Some m => reply_to p m | None => True end.
Lemma lv_process e sl p : lv (okP (rep p)) (process e sl p).
Proof.
  unfold process. destruct (lookupN optionTable (h_id (pk_hdr p))) as [[ik ok]|] eqn:El; [|apply lv_fail].
  destruct (isFragmented (pk_hdr p) && negb (pk_segdone p)) eqn:Ef.
  - unfold processSegment. lvp. apply lv_ret. cbn. unfold reply_to. unfold fragment. fold (isFragmented (pk_hdr p)). rewrite Ef.
    split; [|reflexivity]. cbn. reflexivity.
  - apply lv_bind_; [apply lv_getNow|]. intros now. eapply lv_bind; [apply lv_lift; intros inc Hi; exact Hi|]. intros inc Hd. cbn beta in Hd.
    destruct ok as [k|].
    2:{ destruct (m_body inc); try (apply lv_ret; exact Logic.I). unfold process8001. lvp. apply lv_ret; exact Logic.I. }
    apply lv_bind_; [apply lv_getNow|]. intros now'. eapply lv_bind; [apply lv_lift; intros g Hg; exact Hg|]. intros g Hg. cbn beta in Hg.
    destruct g as [out|]; [|apply lv_ret; exact Logic.I].
    eapply lv_bind; [exact (lv_handler e sl inc out)|]. intros m Hm. apply lv_ret. cbn. eapply filled_reply; eassumption.
Qed.
Definition same_packet (p : packet) : packet -> Prop := fun q => exists done, q = mkPacket (pk_hdr p) (pk_body p) (pk_code p) done.
Lemma lv_decodeP e b : lv (okP (fun q => exists p, decodePacket (e_o e) b = Ok p /\ same_packet p q)) (decodeP e b).
Proof.
  unfold decodeP. eapply lv_bind; [apply lv_lift; intros p Hp; exact Hp|]. intros p Hp. cbn beta in Hp.
  destruct (isFragmented (pk_hdr p)).
  - destruct (h_frag (pk_hdr p)) as [f|]; [|apply lv_panic]. apply lv_bind_; [apply lv_cacheSegment|]. intros d. apply lv_ret.
    exists p. split; [exact Hp|]. exists d. reflexivity.
  - apply lv_ret. exists p. split; [exact Hp|]. exists (pk_segdone p). destruct p; reflexivity.
Qed.
Lemma lv_remove sl : lv (okP yes) (remove sl).
Proof.
  unfold remove. apply lv_bind_; [apply lv_lock|]. intros _. eapply (lv_bindR (okP yes)); [lvp|]. intros r _.
  apply lv_bind_; [apply lv_unlock|]. intros _. constructor. destruct r; exact Logic.I.
Qed.
Lemma lv_tick ph : lv (okP yes) (checkKeepalive ph).
Proof. unfold checkKeepalive, shouldTurnOffline, shouldClear. lvp. Qed.
Lemma lv_apiGeo ph : lv (okP yes) (apiGeo ph).
Proof. unfold apiGeo, getGeoLatestByPhone. lvp. Qed.
Lemma lv_apiSession d : lv (okP yes) (apiSession d).
Proof. unfold apiSession. lvp. Qed.

(** * Programs with the writes they may make *)
Section Em.
Context (O : nat -> Prop).
Definition step_out (s s' : st) (ws : list (nat * bytes)) : Prop :=
  (ws = [] /\ forall c, sent s' c = sent s c)
  \/ (exists c, ws = [] /\ O c /\ sent s' c = [] /\ forall c', c' <> c -> sent s' c' = sent s c')
  \/ (exists c b, ws = [(c, b)] /\ sent s' c = sent s c ++ [b] /\ forall c', c' <> c -> sent s' c' = sent s c').
Inductive em {A} (Q : st -> res A -> Prop) : (list (nat * bytes) -> Prop) -> st -> sp A -> Prop :=
| em_ret (L : list (nat * bytes) -> Prop) s r : L [] -> (forall s', sane s' -> grows s s' -> Q s' r) -> em Q L s (Ret r)
| em_act (L : list (nat * bytes) -> Prop) s a f k (w : st -> list (nat * bytes)) : L [] ->
    (forall s', sane s' -> grows s s' -> sane (f s') /\ grows s' (f s') /\ step_out s' (f s') (w s')) ->
    (forall s', sane s' -> grows s s' -> em Q (fun ws => L (w s' ++ ws)) (f s') (k s')) ->
    em Q L s (Act a f k).
Lemma em_mono {A} (Q : st -> res A -> Prop) L s s' p : em Q L s p -> grows s s' -> em Q L s' p.
Proof.
  intros H Hg. inversion H as [? ? ? Hl Hq|? ? ? ? ? w Hl Hk Hk']; subst.
  - constructor; [exact Hl|]. intros t Ht Hst. apply Hq; [exact Ht|eapply grows_trans; eassumption].
  - apply em_act with w; [exact Hl| |]; intros t Ht Hst; [apply Hk|apply Hk']; try exact Ht; eapply grows_trans; eassumption.
Qed.
Lemma em_nil {A} (Q : st -> res A -> Prop) L s p : em Q L s p -> L [].
Proof. intros H. inversion H; assumption. Qed.
Lemma em_weak {A} (Q Q' : st -> res A -> Prop) L s p : em Q L s p -> forall L' : list (nat * bytes) -> Prop,
  (forall ws, L ws -> L' ws) -> (forall t r, sane t -> grows s t -> Q t r -> Q' t r) -> em Q' L' s p.
Proof.
  induction 1 as [L s r Hl Hq|L s a f k w Hl Hk _ IH]; intros L' HL HQ.
  - constructor; [apply HL; exact Hl|]. intros t Ht Hst. apply HQ; auto.
  - apply em_act with w; [apply HL; exact Hl|exact Hk|]. intros t Ht Hst. destruct (Hk t Ht Hst) as (H1 & H2 & _).
    apply (IH t Ht Hst); [intros ws; apply HL|]. intros u r Hu Hg Hr. apply HQ; [exact Hu| |exact Hr].
    eapply grows_trans; [exact Hst|]. eapply grows_trans; eassumption.
Qed.
Lemma em_bindR {A B} (Q : st -> res A -> Prop) (Q' : st -> res B -> Prop) L1 s (p : sp A) g : em Q L1 s p ->
  forall L : list (nat * bytes) -> Prop, sane s -> (forall ws, L1 ws -> L ws) ->
  (forall t r ws, grows s t -> sane t -> Q t r -> L1 ws -> em Q' (fun ws' => L (ws ++ ws')) t (g r)) ->
  em Q' L s (pbindR p g).
Proof.
  induction 1 as [L1 s r Hl Hq|L1 s a f k w Hl Hk _ IH]; intros L Hs HL Hg; cbn.
  - apply (Hg s r []); [apply grows_refl|exact Hs|apply Hq; [exact Hs|apply grows_refl]|exact Hl].
  - apply em_act with w; [apply HL; exact Hl|exact Hk|]. intros t Ht Hst. destruct (Hk t Ht Hst) as (H1 & H2 & _).
    apply (IH t Ht Hst); [exact H1|intros ws; apply HL|]. intros u r ws Hu Hsu Hr Hw.
    eapply em_weak; [apply (Hg u r (w t ++ ws)); [|exact Hsu|exact Hr|exact Hw]| |auto].
    + eapply grows_trans; [exact Hst|]. eapply grows_trans; eassumption.
    + intros ws' Hx. cbv beta in Hx |- *. rewrite <- app_assoc in Hx. exact Hx.
Qed.
(** programs that write nothing *)
Definition none : list (nat * bytes) -> Prop := fun ws => ws = [].
Lemma quiet_em {A} (Q : st -> res A -> Prop) (P : res A -> Prop) s p : safe sane grows Q s p -> lv P p ->
  em (fun t r => Q t r /\ P r) none s p.
Proof.
  intros H. induction H as [s r Hq|s a f k Hk _ IH]; intros Hp; inversion Hp as [? Hr|? ? ? Hf Hv]; subst.
  - constructor; [reflexivity|]. intros t Ht Hg. auto.
  - apply em_act with (fun _ => []); [reflexivity| |].
    + intros t Ht Hg. destruct (Hk t Ht Hg) as (H1 & H2). split; [exact H1|]. split; [exact H2|]. left. auto.
    + intros t Ht Hg. eapply em_weak; [apply (IH t Ht Hg); apply Hv| |auto]. intros ws ->. reflexivity.
Qed.
Lemma em_silent {A B} (Q : st -> res A -> Prop) (Q' : st -> res B -> Prop) (P : res A -> Prop) (L : list (nat * bytes) -> Prop) s (p : sp A) g : sane s ->
  safe sane grows Q s p -> lv P p -> L [] ->
  (forall t r, grows s t -> sane t -> Q t r -> P r -> em Q' L t (g r)) -> em Q' L s (pbindR p g).
Proof.
  intros Hs H1 H2 HL Hg. eapply em_bindR; [eapply quiet_em; eassumption|exact Hs|intros ws ->; exact HL|].
  intros t r ws Ht Hst (Hq & Hp) ->. exact (Hg t r Ht Hst Hq Hp).
Qed.
Lemma em_ok {A B} (P : st -> A -> Prop) (P' : A -> Prop) (Q' : st -> res B -> Prop) (L : list (nat * bytes) -> Prop) s (p : sp A) g : sane s ->
  SF false P s p -> lv (okP P') p -> L [] -> (forall t er, Q' t (Err er)) -> (forall t, Q' t Panic) ->
  (forall t a, grows s t -> sane t -> P t a -> P' a -> em Q' L t (g a)) -> em Q' L s (pbind p g).
Proof.
  intros Hs H1 H2 HL He Hp Hg. eapply em_silent; [exact Hs|exact H1|exact H2|exact HL|].
  intros t [a|er|] Ht Hst Hq HP; [apply Hg; assumption|constructor; auto..].
Qed.
End Em.

(** * Any number of them under any schedule *)
Definition slack (L : list (nat * bytes) -> Prop) : Prop := forall x a y, L (x ++ a :: y) -> L (x ++ y).
Lemma to_conn_cons c i c0 b log : to_conn c ((i, (c0, b)) :: log) = (if Nat.eqb c0 c then [b] else []) ++ to_conn c log.
Proof. unfold to_conn. cbn. destruct (Nat.eqb c0 c); reflexivity. Qed.
Lemma by_gor_cons j i x log : by_gor j ((i, x) :: log) = (if Nat.eqb i j then [x] else []) ++ by_gor j log.
Proof. unfold by_gor. cbn. destruct (Nat.eqb i j); reflexivity. Qed.
Lemma psteps_em O {A} (Q : st -> res A -> Prop) sch : forall ps s (Ls : nat -> list (nat * bytes) -> Prop), sane s ->
  (forall j, slack (Ls j)) -> (forall j p, nth_error ps j = Some p -> em O Q (Ls j) s p) ->
  exists log, (forall c, sent (snd (psteps ps s sch)) c = sent s c ++ to_conn c log
                 \/ (O c /\ sent (snd (psteps ps s sch)) c = to_conn c log))
    /\ (forall x, In x log -> exists p, nth_error ps (fst x) = Some p)
    /\ forall j p, nth_error ps j = Some p -> Ls j (by_gor j log).
Proof.
  induction sch as [|i sch IH]; intros ps s Ls Hs Hsl Hem; cbn [psteps].
  { exists []. split; [intros c; left; cbn; rewrite app_nil_r; reflexivity|]. split; [intros x []|]. intros j p Hj. exact (em_nil _ _ _ _ _ (Hem j p Hj)). }
  destruct (nth_error ps i) as [[r|a f k]|] eqn:Ei.
  - unfold pstep. rewrite Ei. apply IH; assumption.
  - pose proof (Hem i _ Ei) as Hi. inversion Hi as [|? ? ? ? ? w Hl Hk Hk']; subst.
    destruct (Hk s Hs (grows_refl s)) as (Hs1 & Hg1 & Hout). pose proof (Hk' s Hs (grows_refl s)) as Hem1.
    unfold pstep. rewrite Ei. cbn [fst snd].
    set (Ls' := fun j => if Nat.eqb j i then (fun x => Ls i (w s ++ x)) else Ls j).
    destruct (IH (firstn i ps ++ k s :: skipn (i + 1) ps) (f s) Ls' Hs1) as (log & Hc & Hin & Hlog).
    { intros j. unfold Ls'. destruct (Nat.eqb j i); [|apply Hsl]. intros x y z H. rewrite app_assoc in H |- *. exact (Hsl i _ _ _ H). }
    { intros j p Hj. rewrite (nth_error_upd ps i j (k s) _ Ei) in Hj. unfold Ls'. rewrite (Nat.eqb_sym j i). destruct (Nat.eqb_spec i j) as [<-|Hn].
      - injection Hj as <-. exact Hem1.
      - eapply em_mono; [eapply Hem; exact Hj|exact Hg1]. }
    set (s2 := snd (psteps (firstn i ps ++ k s :: skipn (i + 1) ps) (f s) sch)) in *.
    assert (HL : forall j p, nth_error ps j = Some p -> Ls' j (by_gor j log)).
    { intros j p Hj. destruct (Nat.eq_dec i j) as [<-|Hn].
      - apply (Hlog i (k s)). rewrite (nth_error_upd ps i i (k s) _ Ei), Nat.eqb_refl. reflexivity.
      - apply (Hlog j p). rewrite (nth_error_upd ps i j (k s) _ Ei). destruct (Nat.eqb_spec i j); [congruence|exact Hj]. }
    assert (Hin' : forall x, In x log -> exists p, nth_error ps (fst x) = Some p).
    { intros x Hx. destruct (Hin x Hx) as (p & Hp). rewrite (nth_error_upd ps i (fst x) (k s) _ Ei) in Hp.
      destruct (Nat.eqb_spec i (fst x)) as [<-|Hn]; [eauto|exists p; exact Hp]. }
    destruct Hout as [(Hw & Ho)|[(c0 & Hw & HO & Ho & Hn)|(c0 & b & Hw & Ho & Hn)]].
    + exists log. split; [intros c; rewrite <- (Ho c); apply Hc|]. split; [exact Hin'|]. intros j p Hj. specialize (HL j p Hj). unfold Ls' in HL. rewrite Hw in HL.
      destruct (Nat.eqb_spec j i) as [Eji|]; [rewrite Eji in *|]; exact HL.
    + exists log. split; [|split; [exact Hin'|]].
      * intros c. destruct (Nat.eq_dec c c0) as [->|Hne].
        -- right. split; [exact HO|]. destruct (Hc c0) as [H|(_ & H)]; [rewrite Ho in H; exact H|exact H].
        -- rewrite <- (Hn c Hne). apply Hc.
      * intros j p Hj. specialize (HL j p Hj). unfold Ls' in HL. rewrite Hw in HL. destruct (Nat.eqb_spec j i) as [Eji|]; [rewrite Eji in *|]; exact HL.
    + destruct (Hc c0) as [Hc0|Hc0].
      * exists ((i, (c0, b)) :: log). split; [|split; [intros x [<-|Hx]; [eexists; exact Ei|exact (Hin' x Hx)]|]].
        -- intros c. rewrite to_conn_cons. destruct (Nat.eqb_spec c0 c) as [<-|Hne].
           ++ left. rewrite Hc0, Ho, <- app_assoc. reflexivity.
           ++ cbn [app]. rewrite <- (Hn c) by congruence. apply Hc.
        -- intros j p Hj. specialize (HL j p Hj). unfold Ls' in HL. rewrite Hw in HL. rewrite by_gor_cons, (Nat.eqb_sym i j).
           destruct (Nat.eqb_spec j i) as [Eji|]; [rewrite Eji in *|]; exact HL.
      * exists log. split; [|split; [exact Hin'|]].
        -- intros c. destruct (Nat.eq_dec c c0) as [->|Hne]; [right; exact Hc0|]. rewrite <- (Hn c Hne). apply Hc.
        -- intros j p Hj. specialize (HL j p Hj). unfold Ls' in HL. rewrite Hw in HL.
           destruct (Nat.eqb_spec j i) as [Eji|]; [rewrite Eji in *|exact HL]. exact (Hsl i [] _ _ HL).
  - unfold pstep. rewrite Ei. apply IH; assumption.
Qed.

(** * The goroutines *)
Section Code.
Context (O : nat -> Prop) (e : env).
Definition anyq {A} : st -> res A -> Prop := post false (@any A).
Lemma anyq_all {A} t (r : res A) : anyq t r.
Proof. destruct r; exact Logic.I || reflexivity. Qed.
Definition on_conn (sl c : nat) (s : st) : Prop := exists x, st_sess s !! sl = Some x /\ ss_conn x = c.
Lemma on_conn_mono sl c s t : on_conn sl c s -> grows s t -> on_conn sl c t.
Proof. intros (x & Hx & Hc) Hg. destruct (gr_sess _ _ Hg sl x Hx) as (x' & H1 & H2 & H3). exists x'. split; [exact H1|congruence]. Qed.
Lemma em_connSend s c b w : em O anyq (fun ws => ws = [] \/ ws = [(c, taken w b)]) s (connSend c b w).
Proof.
  apply em_act with (fun s => match st_conns s !! c with Some x => if cn_open x then [(c, taken w b)] else [] | None => [] end).
  - left. reflexivity.
  - intros t Ht _. split; [|split].
    + apply (sf_alterConn t c _ Ht).
    + apply (sf_alterConn t c _ Ht).
    + assert (Ho : forall g c', c' <> c -> sent (set_conns (alter g c) t) c' = sent t c').
      { intros g c' Hn. unfold sent. cbn. rewrite lookup_alter_ne by congruence. reflexivity. }
      unfold step_out. destruct (st_conns t !! c) as [x|] eqn:Ec.
      * destruct (cn_open x) eqn:Eo.
        -- right. right. exists c, (taken w b). split; [reflexivity|]. split; [|intros c'; apply Ho].
           unfold sent. cbn. rewrite lookup_alter, Ec. cbn. rewrite Eo. cbn. destruct w as [[n er]|]; reflexivity.
        -- left. split; [reflexivity|]. intros c'. destruct (decide (c' = c)) as [->|Hn]; [|apply Ho; exact Hn].
           unfold sent. cbn. rewrite lookup_alter, Ec. cbn. rewrite Eo. reflexivity.
      * left. split; [reflexivity|]. intros c'. destruct (decide (c' = c)) as [->|Hn]; [|apply Ho; exact Hn].
        unfold sent. cbn. rewrite lookup_alter, Ec. reflexivity.
  - intros t Ht _. assert (HL : forall ws1, ws1 = [] \/ ws1 = [(c, taken w b)] -> ws1 ++ [] = [] \/ ws1 ++ [] = [(c, taken w b)]).
    { intros ws1. rewrite app_nil_r. auto. }
    destruct (st_conns t !! c) as [x|]; [destruct (cn_open x); [destruct w as [[n er]|]|]|];
      (constructor; [apply HL; auto|intros; apply anyq_all]).
Qed.
Lemma io_app c r w t ws ws' : in_order e c [(r, w)] ws -> in_order e c t ws' -> in_order e c ((r, w) :: t) (ws ++ ws').
Proof.
  intros H H'. inversion H as [|? ? ? H1|? ? ? ? ? ? ? ws1 Hd Hr Hb H1]; subst; cbn [app].
  - apply io_skip. exact H'.
  - inversion H1; subst. apply io_skip. exact H'.
  - inversion H1; subst. eapply io_reply; eassumption.
Qed.
Lemma em_serveOne c sl r w s : sane s -> on_conn sl c s ->
  em O anyq (in_order e c [(r, w)]) s (serveOne e sl r w).
Proof.
  intros Hs Hx. assert (Hses : sess s sl) by (destruct Hx as (x & Hx & _); exists x; exact Hx).
  unfold serveOne. eapply (em_ok O (fun t x => ss_conn x = c /\ is_Some (st_conns t !! ss_conn x)) yes); [exact Hs| |apply lv_readSess|constructor|intros; exact Logic.I|intros; reflexivity|].
  { apply sf_act; [intros; split; [assumption|apply grows_refl]|]. intros t Hg Ht _ _. destruct (on_conn_mono _ _ _ _ Hx Hg) as (x & E & Ec). rewrite E.
    apply sf_ret; [intros u v y (H1 & H2) Huv; split; [exact H1|exact (gr_conn _ _ Huv _ H2)]|]. split; [exact Ec|]. exact (sn_conn _ Ht sl x E). }
  intros t x Hg Ht (Hc & Hco) _. rewrite Hc in Hco. rewrite Hc.
  eapply (em_bindR O anyq); [|exact Ht|intros ws Hw; exact Hw|].
  2:{ intros u q ws _ _ _ Hw. destruct q as [v|er|]; (constructor; [rewrite app_nil_r; exact Hw|intros; apply anyq_all]). }
  unfold processConnRead. destruct r as [frm|er|].
  2:{ unfold lift, pbind. cbn. constructor; [constructor|intros; apply anyq_all]. }
  2:{ unfold lift, pbind. cbn. constructor; [constructor|intros; apply anyq_all]. }
  unfold lift at 1. unfold pbind at 1. cbn [pbindR].
  eapply (em_ok O any); [exact Ht|apply sf_decodeP; exact Ht|apply lv_decodeP|constructor|intros; exact Logic.I|intros; reflexivity|].
  intros t2 q Hg2 Ht2 _ (p & Hd & done & ->).
  eapply (em_ok O any); [exact Ht2| |apply lv_process|constructor|intros; exact Logic.I|intros; reflexivity|].
  { apply sf_process; [exact Ht2| |discriminate]. eapply stable_sess; [exact Hses|]. eapply grows_trans; eassumption. }
  intros t3 out Hg3 Ht3 _ Hr. unfold processConnWrite. destruct out as [m|].
  2:{ constructor; [constructor|intros; apply anyq_all]. }
  cbn in Hr. unfold lift, pbind. cbn [pbindR]. destruct (encodePacket (e_o e) m) as [b|er|] eqn:Eb.
  2:{ constructor; [constructor|intros; apply anyq_all]. }
  2:{ constructor; [constructor|intros; apply anyq_all]. }
  eapply em_weak; [apply em_connSend| |auto]. intros ws [->| ->]; [constructor|]. eapply io_reply; try eassumption. constructor.
Qed.
Lemma em_serve c sl ins : forall s, sane s -> on_conn sl c s -> em O anyq (in_order e c ins) s (serveLoop e sl ins).
Proof.
  induction ins as [|[r w] t IH]; intros s Hs Hx; cbn [serveLoop]; [constructor; [constructor|intros; apply anyq_all]|].
  eapply em_bindR; [apply em_serveOne; eassumption|exact Hs| |].
  { intros ws Hw. rewrite <- (app_nil_r ws). apply io_app; [exact Hw|constructor]. }
  intros u q ws Hg Hu _ Hw. pose proof (on_conn_mono _ _ _ _ Hx Hg) as Hxu.
  assert (Hend : em O anyq (fun ws' => in_order e c ((r, w) :: t) (ws ++ ws')) u (remove sl ;;; ret true)%prog).
  { assert (Hn : in_order e c ((r, w) :: t) (ws ++ [])) by (apply io_app; [exact Hw|constructor]).
    eapply (em_ok O any); [exact Hu|apply sf_remove; [exact Hu|]|apply lv_remove|exact Hn|intros; exact Logic.I|intros; reflexivity|].
    - destruct Hxu as (x & Hxu & _). exists x. exact Hxu.
    - intros. constructor; [exact Hn|intros; apply anyq_all]. }
  destruct q as [[]|er|]; [|exact Hend..].
  eapply em_weak; [apply IH; assumption| |auto]. intros ws' Hw'. apply io_app; assumption.
Qed.
Lemma sf_accept c addr s : sane s -> is_Some (st_conns s !! c) -> SF false (fun t sl => on_conn sl c t) s (accept c addr).
Proof.
  intros Hs Hc. unfold accept. eapply (sf_bind _ (@any unit)); [exact Hs|apply sf_lock|]. intros t0 u0 g0 i0 _. apply (gr_conn _ _ g0) in Hc.
  assert (F : forall t, st_sess t !! fresh (dom (st_sess t)) = None) by (intros v; apply not_elem_of_dom, is_fresh).
  eapply (sf_bind _ (fun t l => exists x, st_sess t !! l = Some x /\ ss_id x = addr /\ ss_conn x = c)); [exact i0| |].
  { apply sf_act.
    - intros v g [P Q Ge Ri Pa By Co]. split; constructor; cbn; eauto.
      + intros i l H. destruct (By i l H) as (x & Hx & Hi). exists x. rewrite lookup_insert_ne; [auto|].
        intros <-. rewrite F in Hx. discriminate.
      + intros l x. destruct (decide (fresh (dom (st_sess v)) = l)) as [<-|Hn].
        * rewrite lookup_insert. intros [= <-]. cbn. exact (gr_conn _ _ g c Hc).
        * rewrite lookup_insert_ne by exact Hn. apply Co.
      + intros l x Hx. exists x. rewrite lookup_insert_ne; [auto|]. intros <-. rewrite F in Hx. discriminate.
    - intros v _ _ _ _. apply sf_ret.
      + intros a b l (x & Hx & Hi & Hk) [_ S _ _]. destruct (S l x Hx) as (x' & Hx' & E1 & E2). exists x'. split_and!; congruence.
      + eexists. cbn. rewrite lookup_insert. split_and!; reflexivity. }
  intros t2 l g2 i2 (x & Hx & Hi & Hk). eapply (sf_bind _ (@any unit)); [exact i2| |].
  { apply sf_write. intros v g [P Q Ge Ri Pa By Co].
    destruct (gr_sess _ _ g l x Hx) as (x' & Hx' & E1 & E2). split; constructor; cbn; eauto.
    intros i l'. destruct (decide (addr = i)) as [<-|Hn].
    + rewrite lookup_insert. intros [= <-]. exists x'. split; congruence.
    + rewrite lookup_insert_ne by exact Hn. apply By. }
  intros t3 u3 g3 i3 _. eapply (sf_bind _ (@any unit)); [exact i3|apply sf_unlock|]. intros t4 u4 g4 i4 _.
  apply sf_ret; [intros a b y H Hg; eapply on_conn_mono; eassumption|].
  eapply on_conn_mono; [|exact g4]. eapply on_conn_mono; [|exact g3]. exists x. auto.
Qed.
Lemma lv_accept c addr : lv (okP yes) (accept c addr).
Proof.
  unfold accept. apply lv_bind_; [apply lv_lock|]. intros _. apply lv_bind_; [lvs|]. intros l. apply lv_bind_; [unfold storeSession, wr1; lvs|].
  intros _. apply lv_bind_; [apply lv_unlock|]. intros _. apply lv_ret. exact Logic.I.
Qed.
Lemma em_conn s c addr ins : O c -> sane s ->
  em O anyq (in_order e c ins) s (opened c ;;; connThread e c addr ins ;;; ret tt)%prog.
Proof.
  intros HO Hs. unfold opened, wr1. unfold pbind at 1. cbn [pbindR ret].
  assert (Hop : forall t, sane t -> sane (set_conns (<[c := mkConn true []]>) t) /\ grows t (set_conns (<[c := mkConn true []]>) t)).
  { intros t [P Q Ge Ri Pa By Co]. split; constructor; cbn; eauto.
    - intros l x H. apply lookup_insert_is_Some'. right. eapply Co. exact H.
    - intros c' H. apply lookup_insert_is_Some'. right. exact H. }
  apply em_act with (fun _ => []); [constructor| |].
  - intros t Ht _. destruct (Hop t Ht) as (H1 & H2). split; [exact H1|]. split; [exact H2|]. right. left. exists c. split; [reflexivity|].
    split; [exact HO|]. unfold sent. cbn. split; [rewrite lookup_insert; reflexivity|]. intros c' Hn. rewrite lookup_insert_ne by congruence. reflexivity.
  - intros t Ht _. destruct (Hop t Ht) as (H1 & _). set (t1 := set_conns _ t) in *. cbn [app].
    assert (Hc : is_Some (st_conns t1 !! c)) by (unfold t1; cbn; rewrite lookup_insert; eauto).
    eapply (em_bindR O anyq); [|exact H1|intros ws Hw; exact Hw|].
    2:{ intros u q ws _ _ _ Hw. destruct q; (constructor; [rewrite app_nil_r; exact Hw|intros; apply anyq_all]). }
    unfold connThread. eapply (em_ok O (fun t sl => on_conn sl c t)); [exact H1|apply sf_accept; assumption|apply lv_accept|constructor|intros; exact Logic.I|intros; reflexivity|].
    intros t2 sl _ Ht2 Hon _. apply em_serve; assumption.
Qed.
Lemma em_send s i m w : sane s ->
  em O anyq (fun ws => ws = [] \/ exists c b, encodePacket (e_o e) m = Ok b /\ ws = [(c, taken w b)]) s (serverSend e i m w).
Proof.
  intros Hs. unfold serverSend. eapply (em_ok O (opt sess)); [exact Hs|apply sf_getSession|apply lv_getSession|left; reflexivity|intros; exact Logic.I|intros; reflexivity|].
  intros t x _ Ht Hx _. destruct x as [sl|]; [|constructor; [left; reflexivity|intros; apply anyq_all]].
  eapply (em_ok O (fun t x => is_Some (st_conns t !! ss_conn x))); [exact Ht|apply sf_readSess; exact Hx|apply lv_readSess|left; reflexivity|intros; exact Logic.I|intros; reflexivity|].
  intros t2 x Hg2 Ht2 Hc _. eapply (em_bindR O anyq _ (fun ws => ws = [] \/ exists c b, encodePacket (e_o e) m = Ok b /\ ws = [(c, taken w b)])); [|exact Ht2|intros ws Hw; exact Hw|].
  - unfold processConnWrite, lift, pbind. cbn [pbindR]. destruct (encodePacket (e_o e) m) as [b|er|] eqn:Eb;
      [|constructor; [left; reflexivity|intros; apply anyq_all]..].
    eapply em_weak; [apply em_connSend| |auto]. intros ws [->| ->]; [left; reflexivity|]. right. exists (ss_conn x), b. auto.
  - intros u q ws Hg Hu _ Hw.
    assert (Hw' : ws ++ [] = [] \/ exists c b, encodePacket (e_o e) m = Ok b /\ ws ++ [] = [(c, taken w b)]) by (rewrite app_nil_r; exact Hw).
    assert (Hret : forall r : res unit, em O anyq (fun ws' => ws ++ ws' = [] \/ exists c b, encodePacket (e_o e) m = Ok b /\ ws ++ ws' = [(c, taken w b)]) u (Ret r)).
    { intros r. constructor; [exact Hw'|intros; apply anyq_all]. }
    assert (Hrem : em O anyq (fun ws' => ws ++ ws' = [] \/ exists c b, encodePacket (e_o e) m = Ok b /\ ws ++ ws' = [(c, taken w b)]) u (remove sl)).
    { eapply em_weak; [eapply quiet_em; [apply (sf_remove false u sl); [exact Hu|]|apply lv_remove]| |].
      - eapply stable_sess; [|exact Hg]. eapply stable_sess; [exact Hx|exact Hg2].
      - intros ws' ->. exact Hw'.
      - intros. apply anyq_all. }
    destruct q as [v|[]|]; first [apply Hret | exact Hrem].
Qed.
Lemma sf_byPhone_own s ph : SF false (opt (fun t l => exists d, st_devs t !! l = Some d /\ d_phone d = ph)) s (getDeviceByPhone ph).
Proof.
  apply sf_read.
  - intros t u [l|] Hp Hg; cbn in *; [|exact Logic.I]. destruct Hp as (d & Hd & Hph). destruct (gr_dev _ _ Hg l d Hd) as (d' & H1 & H2).
    exists d'. split; [exact H1|]. congruence.
  - intros t _ Ht. destruct (st_byPhone t !! ph) as [l|] eqn:El; cbn; [|exact Logic.I]. exact (sn_phone _ Ht ph l El).
Qed.
Lemma sf_readConst_own s l ph : (exists d, st_devs s !! l = Some d /\ d_phone d = ph) -> SF false (fun _ d => d_phone d = ph) s (readConst l).
Proof.
  intros (d & Hd & Hph). apply sf_act; [intros; split; [assumption|apply grows_refl]|]. intros t Hg Ht _ _.
  destruct (gr_dev _ _ Hg l d Hd) as (d' & H1 & H2). rewrite H1. apply sf_ret; [intros a b y H _; exact H|]. congruence.
Qed.
Lemma em_command {A} s ph id b w (r r' : A) : sane s ->
  em O anyq (command e ph id b w) s
    (d <- getDeviceByPhone ph ;;
     match d with
     | None => ret r
     | Some l =>
         dv <- readConst l ;; y <- apiSession dv ;; x <- readSess (fst y) ;;
         serverSend e (ss_id x) (mkMsg (genMsgHeader (d_ver dv) (d_proto dv) (d_phone dv) id (snd y)) b) w ;;;
         ret r'
     end)%prog.
Proof.
  intros Hs. eapply (em_ok O (opt _)); [exact Hs|apply sf_byPhone_own|apply lv_byPhone|left; reflexivity|intros; exact Logic.I|intros; reflexivity|].
  intros t d _ Ht Hd _. destruct d as [l|]; [|constructor; [left; reflexivity|intros; apply anyq_all]].
  eapply (em_ok O (fun _ d => d_phone d = ph)); [exact Ht|apply sf_readConst_own; exact Hd|apply lv_readConst|left; reflexivity|intros; exact Logic.I|intros; reflexivity|].
  intros t2 dv _ Ht2 <- _. eapply (em_ok O (fun t y => sess t (fst y))); [exact Ht2|apply sf_apiSession; exact Ht2|apply lv_apiSession|left; reflexivity|intros; exact Logic.I|intros; reflexivity|].
  intros t3 y _ Ht3 Hy _. eapply (em_ok O (fun t x => is_Some (st_conns t !! ss_conn x))); [exact Ht3|apply sf_readSess; exact Hy|apply lv_readSess|left; reflexivity|intros; exact Logic.I|intros; reflexivity|].
  intros t4 x _ Ht4 _ _.
  assert (HL : forall ws, ws = [] \/ (exists c f, encodePacket (e_o e) (mkMsg (genMsgHeader (d_ver dv) (d_proto dv) (d_phone dv) id (snd y)) b) = Ok f /\ ws = [(c, taken w f)]) ->
    command e (d_phone dv) id b w ws).
  { intros ws [->|(c & f & H1 & H2)]; [left; reflexivity|]. right. exists c, (d_ver dv), (d_proto dv), (snd y), f. auto. }
  eapply em_bindR; [apply em_send; exact Ht4|exact Ht4|exact HL|]. intros u q ws _ _ _ Hw.
  destruct q; (constructor; [rewrite app_nil_r; apply HL; exact Hw|intros; apply anyq_all]).
Qed.
Lemma em_bind_ret {A B} (L : list (nat * bytes) -> Prop) s (p : sp A) (r : B) : sane s -> em O anyq L s p ->
  em O anyq L s (p ;;; ret r)%prog.
Proof.
  intros Hs H. unfold pbind. eapply em_bindR; [exact H|exact Hs|auto|]. intros u q ws _ _ _ Hw.
  destruct q; (constructor; [rewrite app_nil_r; exact Hw|intros; apply anyq_all]).
Qed.
Lemma em_none {A} s (p : sp A) : sane s -> SF false any s p -> lv (okP yes) p -> em O anyq (fun ws => ws = []) s p.
Proof. intros Hs H1 H2. eapply em_weak; [eapply quiet_em; eassumption|auto|]. intros. apply anyq_all. Qed.
Lemma em_code s g : sane s -> placed s g -> (forall c addr ins, g = GConn c addr ins -> O c) ->
  em O anyq (may_write e s g) s (code e g).
Proof.
  intros Hs Hp HO. pose proof (sf_code false e s g Hs Hp ltac:(discriminate)) as HS.
  destruct g as [c addr ins|sl ins|sl p|ph| |ph|ph w|ph bad ps w|now|]; cbn [code placed may_write] in *.
  - apply em_conn; [eapply HO; reflexivity|exact Hs].
  - destruct Hp as (x & Hx). apply em_bind_ret; [exact Hs|].
    eapply em_weak; [apply (em_serve (ss_conn x) sl ins s Hs); exists x; auto| |auto]. intros ws Hw. exists x. auto.
  - apply em_none; [exact Hs|exact HS|]. eapply lv_bind; [apply lv_process|]. intros; apply lv_ret; exact Logic.I.
  - apply em_none; [exact Hs|exact HS|apply lv_tick].
  - apply em_none; [exact Hs|exact HS|]. apply lv_bind_; [|intros; apply lv_ret; exact Logic.I]. unfold apiList, listDevice, rd1. lvs.
  - apply em_none; [exact Hs|exact HS|]. apply lv_bind_; [apply lv_apiGeo|intros; apply lv_ret; exact Logic.I].
  - apply em_bind_ret; [exact Hs|]. apply em_command. exact Hs.
  - apply em_bind_ret; [exact Hs|]. apply em_command. exact Hs.
  - apply em_none; [exact Hs|exact HS|]. unfold wr1. lvs.
  - apply em_none; [exact Hs|exact HS|]. apply lv_bind_; [|intros; apply lv_ret; exact Logic.I]. unfold countSession, rd1. lvs.
Qed.
End Code.

(** * Everything together *)
Lemma io_slack e c ins ws : in_order e c ins ws -> slack (in_order e c ins) /\ in_order e c ins ws.
Proof.
  intros H0. split; [|exact H0]. clear H0 ws. intros x a y H. remember (x ++ a :: y) as ws eqn:E. revert x a y E.
  induction H as [ins|i ins ws H IH|frm w ins p done m b ws H1 H2 H3 H IH]; intros x a y E.
  - destruct x; discriminate E.
  - apply io_skip. eapply IH. exact E.
  - destruct x as [|z x]; cbn in E |- *.
    + injection E as _ ->. apply io_skip. exact H.
    + injection E as <- ->. eapply io_reply; [exact H1|exact H2|exact H3|]. eapply IH. reflexivity.
Qed.
Lemma command_slack e ph id b w : slack (command e ph id b w).
Proof.
  intros x a y [H|(c & v & q & sn & f & Hf & H)]; [destruct x; discriminate H|]. destruct x as [|z x]; cbn in H.
  - injection H as _ ->. left. reflexivity.
  - destruct x; discriminate H.
Qed.
Lemma nil_slack : slack (fun ws => ws = []).
Proof. intros x a y H. destruct x; discriminate H. Qed.
Lemma may_write_slack e s g : slack (may_write e s g).
Proof.
  destruct g; cbn [may_write]; try apply nil_slack; try apply command_slack.
  - intros x a y H. exact (proj1 (io_slack _ _ _ _ H) x a y H).
  - intros x a y (q & Hq & H). exists q. split; [exact Hq|]. exact (proj1 (io_slack _ _ _ _ H) x a y H).
Qed.
Theorem writes_log e s gs sch : sane s -> Forall (placed s) gs -> new_conns s gs ->
  exists log, (forall c, sent (snd (running e gs s sch)) c = sent s c ++ to_conn c log)
    /\ (forall x, In x log -> exists g, nth_error gs (fst x) = Some g)
    /\ forall i g, nth_error gs i = Some g -> may_write e s g (by_gor i log).
Proof.
  intros Hs Hp Hn. unfold running.
  set (O := fun c => exists addr ins, In (GConn c addr ins) gs).
  set (Ls := fun i => match nth_error gs i with Some g => may_write e s g | None => fun ws => ws = [] end).
  destruct (psteps_em O anyq sch (List.map (code e) gs) s Ls Hs) as (log & Hc & Hin & Hl).
  - intros j. unfold Ls. destruct (nth_error gs j); [apply may_write_slack|apply nil_slack].
  - intros j p Hj. rewrite nth_error_map in Hj. unfold Ls. destruct (nth_error gs j) as [g|] eqn:Eg; [|discriminate Hj].
    injection Hj as <-. pose proof (nth_error_In _ _ Eg) as Hg. apply em_code; [exact Hs| |].
    + rewrite List.Forall_forall in Hp. exact (Hp g Hg).
    + intros c addr ins ->. exists addr, ins. exact Hg.
  - exists log. split_and!.
    + intros c. destruct (Hc c) as [H|((addr & ins & HO) & H)]; [exact H|]. rewrite H. unfold sent. rewrite (Hn _ _ _ HO). reflexivity.
    + intros x Hx. destruct (Hin x Hx) as (p & Hj). rewrite nth_error_map in Hj. destruct (nth_error gs (fst x)); [eauto|discriminate Hj].
    + intros i g Hg. specialize (Hl i (code e g)). rewrite nth_error_map, Hg in Hl. specialize (Hl eq_refl). unfold Ls in Hl. rewrite Hg in Hl. exact Hl.
Qed.

(** when no write fails, only whole frames *)
Lemma io_whole e c ins ws : in_order e c ins ws -> Forall (fun x => snd x = None) ins -> Forall (fun x => whole_frame e (snd x)) ws.
Proof.
  induction 1 as [ins|i ins ws H IH|frm w ins p done m b ws H1 H2 H3 H IH]; intros Hf; [constructor|inversion Hf; auto|].
  inversion Hf as [|? ? Hw Hf']; subst. cbn in Hw. subst w. constructor; [|auto]. exists m. exact H3.
Qed.
Lemma may_write_whole e s g ws : may_write e s g ws -> writes_succeed g -> Forall (fun x => whole_frame e (snd x)) ws.
Proof.
  assert (Hcmd : forall ph id b w, command e ph id b w ws -> w = None -> Forall (fun x => whole_frame e (snd x)) ws).
  { intros ph id b w [->|(c & v & q & sn & f & Hf & ->)] ->; [constructor|]. constructor; [|constructor]. eexists. exact Hf. }
  destruct g; cbn [may_write writes_succeed]; intros Hm Hw; try (subst ws; constructor); eauto.
  - eapply io_whole; eassumption.
  - destruct Hm as (x & _ & Hm). eapply io_whole; eassumption.
Qed.
Lemma log_whole e s gs log c : (forall x, In x log -> exists g, nth_error gs (fst x) = Some g) ->
  (forall i g, nth_error gs i = Some g -> may_write e s g (by_gor i log)) -> Forall writes_succeed gs ->
  Forall (whole_frame e) (to_conn c log).
Proof.
  intros Hin Hl Hw. apply List.Forall_forall. intros b Hb. unfold to_conn in Hb. apply in_map_iff in Hb as (x & <- & Hx).
  apply filter_In in Hx as (Hx & _). destruct (Hin x Hx) as (g & Hg).
  pose proof (may_write_whole _ _ _ _ (Hl _ _ Hg) (proj1 (List.Forall_forall _ _) Hw g (nth_error_In _ _ Hg))) as H.
  rewrite List.Forall_forall in H. apply (H (snd x)). unfold by_gor. apply in_map. apply filter_In. split; [exact Hx|apply Nat.eqb_refl].
Qed.
Theorem writes_whole e s gs sch c : sane s -> Forall (placed s) gs -> new_conns s gs -> Forall writes_succeed gs ->
  exists bs, sent (snd (running e gs s sch)) c = sent s c ++ bs /\ Forall (whole_frame e) bs.
Proof.
  intros Hs Hp Hn Hw. destruct (writes_log e s gs sch Hs Hp Hn) as (log & Hc & Hin & Hl). exists (to_conn c log).
  split; [apply Hc|]. eapply log_whole; eassumption.
Qed.

(** what the other side reads *)
Lemma whole_framed e b : whole_frame e b -> exists x, b = framed x /\ no_delim x.
Proof.
  intros (m & H). unfold encodePacket, rmap in H. destruct (msgEncode (e_o e) m) as [pkt|er|]; try discriminate H. injection H as <-.
  exists (flat_map escByte (genVerifier pkt)). split; [reflexivity|]. apply esc_no7e.
Qed.
Lemma split_delim {A} (d : A) c x r rest : ~ In d c -> x ++ rest = c ++ d :: r -> (~ In d x) \/ exists y, x = c ++ d :: y /\ y ++ rest = r.
Proof.
  revert x. induction c as [|a c IH]; intros x Hc E.
  - destruct x as [|b x]; [left; auto|]. cbn in E. injection E as -> E. right. exists x. auto.
  - destruct x as [|b x]; [left; auto|]. cbn in E. injection E as -> E. destruct (IH x) as [H|(y & -> & Hy)]; [intros H; apply Hc; right; exact H|exact E| |].
    + left. intros [->|H1]; [apply Hc; left; reflexivity|auto].
    + right. exists y. auto.
Qed.
Lemma frames_open s x : chunks_ok s -> st_bytes s = 0x7e :: x -> ~ In 0x7e x -> frames s = [].
Proof.
  intros Hs E Hx. pose proof (frames_unfold s Hs) as H. rewrite E in H. unfold flatRecv in H. cbn [recvBuf] in H.
  destruct (recvBuf_content x 0x7e [0x7e] Hx) as (la & El).
  change (126 =? 126) with true in H. cbn [app] in H. rewrite El in H. exact H.
Qed.
Theorem prefix_frames bs : forall s rest, chunks_ok s -> Forall (fun b => exists x, b = framed x /\ no_delim x) bs ->
  st_bytes s ++ rest = concat bs -> exists later, bs = frames s ++ later /\ (rest = [] -> later = []).
Proof.
  induction bs as [|b bs IH]; intros s rest Hs Hf E.
  - apply app_eq_nil in E as (E & _). exists []. rewrite frames_junk; [auto|exact Hs|]. rewrite E. intros [].
  - inversion Hf as [|? ? (x & -> & Hx) Hf']; subst. cbn [concat] in E. unfold framed in E. cbn [app] in E. rewrite <- app_assoc in E. cbn [app] in E.
    destruct (st_bytes s) as [|b0 l] eqn:El.
    + exists (framed x :: bs). rewrite frames_junk; [|exact Hs|rewrite El; intros []]. split; [reflexivity|]. intros ->. discriminate E.
    + injection E as -> E. destruct (split_delim delim x l (concat bs) rest Hx E) as [Hn|(y & -> & Hy)].
      * exists (framed x :: bs). rewrite (frames_open s l Hs El Hn). split; [reflexivity|]. intros ->.
        exfalso. apply Hn. rewrite app_nil_r in E. rewrite E. apply in_or_app. right. left. reflexivity.
      * destruct (frames_cons s [] x y Hs ltac:(intros []) Hx El) as (s' & _ & E1 & _ & Hs' & ->).
        destruct (IH s' rest Hs' Hf' ltac:(rewrite E1; exact Hy)) as (later & Hl & Hr). exists later. split; [|exact Hr].
        cbn [app]. rewrite <- Hl. reflexivity.
Qed.
Theorem writes_read e s gs sch c str rest : sane s -> Forall (placed s) gs -> new_conns s gs -> Forall writes_succeed gs ->
  Forall (whole_frame e) (sent s c) -> ~ In [] (st_next str) ->
  st_bytes str ++ rest = concat (sent (snd (running e gs s sch)) c) ->
  exists later, sent (snd (running e gs s sch)) c = frames str ++ later /\ (rest = [] -> later = []).
Proof.
  intros Hs Hp Hn Hw Hf Hst E. destruct (writes_whole e s gs sch c Hs Hp Hn Hw) as (bs & Hb & Hbs).
  apply (prefix_frames _ str rest Hst); [|exact E]. rewrite Hb. apply Forall_app. split.
  - eapply List.Forall_impl; [|exact Hf]. intros a; apply whole_framed.
  - eapply List.Forall_impl; [|exact Hbs]. intros a; apply whole_framed.
Qed.
