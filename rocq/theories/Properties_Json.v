(** C140: what a terminal is told when its parameters are set by a request with a JSON body *)
From Coq Require Import String Ascii.
From stdpp Require Import gmap.
From Verif Require Import Base HexM TimeM HeaderM ParamsM GeoM MsgM PacketM FrameM ProgM RingM StateM ProcM ServerM ClientM HttpM JsonM
  SpecState SpecCodec SpecJson JsonP ExampleData ExampleState Properties_Server.
Local Open Scope N_scope.

(** C140: a body that asks for known parameters, with values of the right kind and their number, is answered with 200 and
    the terminal (not of version 2019, cf. C138) is told exactly these parameters with these values. *)
Theorem C140_partial : forall e num s ph d x k v ps w ps', consistent s -> devAt s ph = Some d -> sessAt s (d_sid d) = Some x ->
  st_conns s !! ss_conn x = Some k -> cn_open k = true -> exact_numbers num ->
  d_ver d <> V2019 -> digits ph = true -> length ph = 12%nat ->
  asks v ps -> params_sent (e_o e) ps w ps' -> dp_phone ps' = ph -> (length w < 1022)%nat ->
  exists f s', run (httpSetting e num ph (Some v) None) s = (Ok (mkResp 200 []), s')
    /\ st_conns s' !! ss_conn x = Some (mkConn true (cn_out k ++ [f]))
    /\ (forall c, c <> ss_conn x -> st_conns s' !! c = st_conns s !! c)
    /\ tells (e_o e) f ph 0x8103 ((ss_sn x + 1) mod 65536) (B8103 (dp_cnt ps') (Some ps')).
Proof. exact setting_exact. Qed.
Print Assumptions C140_partial.
(** The number in the body is believed: with a smaller one (none counts as 0) the request is answered with 200 all the same
    and the terminal is told only so many of the parameters; unknown ones are left out before that. *)
Theorem C140_refuted : forall e num s ph d x k v ps w qs, consistent s -> devAt s ph = Some d -> sessAt s (d_sid d) = Some x ->
  st_conns s !! ss_conn x = Some k -> cn_open k = true -> exact_numbers num ->
  d_ver d <> V2019 -> digits ph = true -> length ph = 12%nat ->
  asks v ps ->
  params_list_sent (e_o e) (List.filter (fun p => match paramType (p_id p) with Some _ => true | None => false end) (dp_list ps)) w qs ->
  (N.to_nat (dp_cnt ps) <= length qs)%nat -> (length w < 1022)%nat ->
  exists f s', run (httpSetting e num ph (Some v) None) s = (Ok (mkResp 200 []), s')
    /\ st_conns s' !! ss_conn x = Some (mkConn true (cn_out k ++ [f]))
    /\ (forall c, c <> ss_conn x -> st_conns s' !! c = st_conns s !! c)
    /\ tells (e_o e) f ph 0x8103 ((ss_sn x + 1) mod 65536)
         (B8103 (dp_cnt ps) (Some (mkParams ph (dp_cnt ps) (firstn (N.to_nat (dp_cnt ps)) qs)))).
Proof.
  intros e num s ph d x k v ps w qs C Hd Hx Hk Ho Hn Hv Hdg Hln Ha Hs Hc Hw.
  exact (setting_received e num s ph d x k C Hd Hx Hk Ho v ps w qs Hn Hv Hdg Hln Ha Hs Hc Hw).
Qed.
Print Assumptions C140_refuted.
(** With a greater number, for example when one of the parameters is unknown and left out, the request is answered with 200
    and the terminal panics when it decodes the message: the simulator ends. *)
Theorem C140_kills_refuted : forall e ec num s ph d x k c slc xc v ps w qs, consistent s -> devAt s ph = Some d -> sessAt s (d_sid d) = Some x ->
  st_conns s !! ss_conn x = Some k -> cn_open k = true -> exact_numbers num ->
  d_ver d <> V2019 -> digits ph = true -> length ph = 12%nat -> e_o ec = e_o e -> st_sess c !! slc = Some xc ->
  asks v ps ->
  params_list_sent (e_o e) (List.filter (fun p => match paramType (p_id p) with Some _ => true | None => false end) (dp_list ps)) w qs ->
  (length qs < N.to_nat (dp_cnt ps))%nat -> (length w < 1022)%nat ->
  exists f s', run (httpSetting e num ph (Some v) None) s = (Ok (mkResp 200 []), s')
    /\ st_conns s' !! ss_conn x = Some (mkConn true (cn_out k ++ [f]))
    /\ run (clientLoop ec slc [(Ok f, None)]) c = (Panic, c).
Proof. exact setting_kills. Qed.
Print Assumptions C140_kills_refuted.
(** One item that is null, or gives a known parameter no value or one of another kind, makes the handler panic: the
    terminal is told nothing. *)
Theorem C140_lost_refuted : forall e num s ph d x k l its it, consistent s -> devAt s ph = Some d -> sessAt s (d_sid d) = Some x ->
  st_conns s !! ss_conn x = Some k -> cn_open k = true ->
  member l "params" (fun a => a = JArr its) -> In it its -> spoils it ->
  exists a s', run (httpSetting e num ph (Some (JObj l)) None) s = (Ok a, s') /\ st_conns s' = st_conns s
    /\ (typed_body num (JObj l) -> a = mkResp 500 []) /\ (~ typed_body num (JObj l) -> a = mkResp 400 [JErr]).
Proof.
  intros e num s ph d x k l its it C Hd Hx Hk Ho Hm Hi Hs.
  exact (setting_lost e num s ph d x k C Hd Hx Hk Ho (JObj l) l its it eq_refl Hm Hi Hs).
Qed.
Print Assumptions C140_lost_refuted.
(** Exactly the bodies that cannot be bound are answered with 400; a body that is not JSON at all still has the
    terminal told a setting, of no parameters. *)
Theorem C140_answers_partial : forall e num s ph d x k, consistent s -> devAt s ph = Some d -> sessAt s (d_sid d) = Some x ->
  st_conns s !! ss_conn x = Some k -> cn_open k = true ->
  (forall body, exists a s', run (httpSetting e num ph body None) s = (Ok a, s')
     /\ (a = mkResp 400 [JErr] <-> unbound num body)
     /\ (~ unbound num body -> a = mkResp 200 [] /\ (exists f, st_conns s' !! ss_conn x = Some (mkConn true (cn_out k ++ [f])))
                               \/ a = mkResp 500 [] /\ st_conns s' = st_conns s))
  /\ exists f s', run (httpSetting e num ph None None) s = (Ok (mkResp 400 [JErr]), s')
     /\ st_conns s' !! ss_conn x = Some (mkConn true (cn_out k ++ [f]))
     /\ encodePacket (e_o e) (platform_msg d 0x8103 ((ss_sn x + 1) mod 65536) (B8103 0 (Some (mkParams [] 0 [])))) = Ok f.
Proof.
  intros e num s ph d x k C Hd Hx Hk Ho. split; [|exact (setting_text e num s ph d x k C Hd Hx Hk Ho)].
  intros body. destruct (setting_answered e num s ph d x k C Hd Hx Hk Ho body) as (a & s' & E & Hu & H). exists a, s'.
  split; [exact E|]. split; [exact Hu|]. intros Hn. destruct (paramsEncode (e_o e) (fst (bindBody num body))); destruct H as [H1 H2]; auto.
Qed.
Print Assumptions C140_answers_partial.

(** {"PARAMS": [{"paramId": 1, "paramValue": 60}, {"paramValue": "ABC", "paramid": 19, "unit": true}], "paramCnt": n} *)
Definition num0 (t : str) : option Z := if digits t then Some (Z.of_N (dec_value t)) else None.
Definition body0 (n : string) (last : list jvalue) : jvalue :=
  JObj [(text "PARAMS", JArr ([JObj [(text "paramId", JNum (text "1")); (text "paramValue", JNum (text "60"))];
                               JObj [(text "paramValue", JText abc); (text "paramid", JNum (text "19")); (text "unit", JBool true)]] ++ last));
        (text "paramCnt", JNum (text n))].
Definition asked0 (n : N) : devparams := mkParams [] n [mkParam 1 0 (VF64 60); mkParam 0x13 0 (VStr abc)].
Lemma num0_exact : exact_numbers num0.
Proof. intros t n H _. unfold num0. destruct (decimal_digits t n H) as (_ & -> & ->). reflexivity. Qed.
Lemma dec1 (c : N) : 48 <= c <= 57 -> decimal [c] (c - 48).
Proof. intros H. split; [discriminate|]. split; [repeat constructor; lia|]. split; [intros E; cbn in E; subst; reflexivity|]. cbn. lia. Qed.
Lemma called_key k s : called k s <-> keyIs k (text s) = true. Proof. symmetry. apply (keyIs_spec k (text s) s eq_refl). Qed.
Ltac key := apply called_key; reflexivity.
Ltac members := let Hi := fresh in let Hk := fresh in let E := fresh in
  intros ? ? Hi Hk; cbn [In] in Hi; apply called_key in Hk;
  repeat (destruct Hi as [E|Hi]; [injection E as <- <-; vm_compute in Hk; try discriminate Hk; clear Hk|]); try contradiction.
Ltac pick := first [do 2 eexists; split; [left; reflexivity|key] | do 2 eexists; split; [right; left; reflexivity|key]
                   | do 2 eexists; split; [right; right; left; reflexivity|key]].
Ltac has := split; [pick|members].
Lemma asks0 n c : 48 <= c <= 57 -> text n = [c] -> asks (body0 n []) (asked0 (c - 48)).
Proof.
  intros Hc En. split; [reflexivity|]. eexists. split; [reflexivity|]. rewrite En. split.
  - split; [cbn; lia|]. left. has. exists [c]. split; [reflexivity|]. apply dec1, Hc.
  - has. eexists. split; [reflexivity|]. repeat constructor.
    + eexists. split; [reflexivity|]. split; [has; exists [49]; split; [reflexivity|exact (dec1 49 ltac:(lia))]|].
      split; [reflexivity|]. split; [split; [cbn; lia|right; split; [members|reflexivity]]|].
      has. cbn. exists 60. split; [reflexivity|]. split; [reflexivity|]. exists [54; 48]. split; [reflexivity|].
      split; [discriminate|]. split; [repeat constructor; lia|]. split; [discriminate|reflexivity].
    + eexists. split; [reflexivity|]. split; [has; exists [49; 57]; split; [reflexivity|]|].
      { split; [discriminate|]. split; [repeat constructor; lia|]. split; [discriminate|reflexivity]. }
      split; [reflexivity|]. split; [split; [cbn; lia|right; split; [members|reflexivity]]|].
      has. reflexivity.
Qed.
Definition told0 : devparams := mkParams phone12 2 [mkParam 1 4 (VU32 60); mkParam 0x13 3 (VStr abc)].
Example C140_ex : consistent s2 /\ devAt s2 phone12 = Some d1 /\ sessAt s2 (d_sid d1) = Some x1
  /\ (exists k, st_conns s2 !! ss_conn x1 = Some k /\ cn_open k = true) /\ d_ver d1 <> V2019 /\ digits phone12 = true /\ length phone12 = 12%nat
  /\ exact_numbers num0 /\ asks (body0 "2" []) (asked0 2) /\ asks (body0 "1" []) (asked0 1) /\ asks (body0 "3" []) (asked0 3)
  /\ (exists w, params_sent o0 (asked0 2) w told0 /\ (length w < 1022)%nat)
  /\ spoils JNull /\ spoils (JObj [(text "paramID", JNum (text "1")); (text "paramValue", JText (text "60"))])
  /\ fst (run (httpSetting e0 num0 phone12 (Some (body0 "2" [])) None) s2) = Ok (mkResp 200 [])
  /\ fst (run (httpSetting e0 num0 phone12 (Some (body0 "3" [JNull])) None) s2) = Ok (mkResp 500 [])
  /\ fst (run (httpSetting e0 num0 phone12 (Some (body0 "256" [])) None) s2) = Ok (mkResp 400 [JErr]).
Proof.
  split; [exact s2_ok|]. split; [exact s2_d1|]. split; [vmr|]. split; [eexists; split; [vmr|reflexivity]|].
  split; [vm_compute; discriminate|]. split; [reflexivity|]. split; [reflexivity|]. split; [exact num0_exact|].
  split; [exact (asks0 "2" 50 ltac:(lia) eq_refl)|]. split; [exact (asks0 "1" 49 ltac:(lia) eq_refl)|]. split; [exact (asks0 "3" 51 ltac:(lia) eq_refl)|].
  split.
  { exists ([2] ++ [0; 0; 0; 1; 4; 0; 0; 0; 60] ++ [0; 0; 0; 0x13; 3; 65; 66; 67]). split; [|cbn; lia].
    split; [cbn; lia|]. split; [reflexivity|]. split; [reflexivity|].
    eexists. split; [|reflexivity]. cbn [dp_list].
    eapply (pls_cons _ _ [0; 0; 0; 1; 4; 0; 0; 0; 60]).
    { exists PDword, [0; 0; 0; 60]. repeat split. apply (vf_f32 o0 60). lia. }
    eapply (pls_cons _ _ [0; 0; 0; 0x13; 3; 65; 66; 67] _ _ []).
    { exists PGBK, abc. repeat split. apply vf_gbk; [split; reflexivity|cbn; lia]. }
    constructor. }
  split; [left; reflexivity|]. split.
  { right. do 3 eexists. split; [reflexivity|]. split; [has; exists [49]; split; [reflexivity|exact (dec1 49 ltac:(lia))]|].
    split; [reflexivity|]. split; [reflexivity|]. members. intros t. discriminate. }
  split; [vmr|]. split; vmr.
Qed.
