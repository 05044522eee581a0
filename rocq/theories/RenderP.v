(** Proofs for what the HTTP answers show (C141) *)
From Coq Require Import String Ascii ZifyN ZifyBool.
From stdpp Require Import gmap.
From Verif Require Import Base HexM HashM TimeM HeaderM ParamsM GeoM MsgM ProgM StateM ProcM HttpM JsonM RenderM.
From Verif Require Import SpecCodec SpecRing SpecState SpecHttp SpecJson SpecRender DecP StateP HttpP JsonP.
Local Open Scope N_scope.

(** ** UTF-8 *)
Ltac euclid := Z.to_euclidean_division_equations.
Lemma enc2 a b : second2 a b = true -> exists c, scalar c /\ enc c = [a; b].
Proof.
  unfold second2, cont, scalar, enc. intros H. exists ((a - 192) * 64 + (b - 128)). split; [lia|].
  destruct (N.ltb_spec ((a - 192) * 64 + (b - 128)) 0x80); [lia|].
  destruct (N.ltb_spec ((a - 192) * 64 + (b - 128)) 0x800); [|lia].
  f_equal; [|f_equal]; zify; euclid; lia.
Qed.
Lemma enc3 a b c : second3 a b && cont c = true -> exists x, scalar x /\ enc x = [a; b; c].
Proof.
  unfold second3, cont, scalar, enc. intros H. exists ((a - 224) * 4096 + (b - 128) * 64 + (c - 128)).
  remember ((a - 224) * 4096 + (b - 128) * 64 + (c - 128)) as x eqn:E. split; [lia|].
  destruct (N.ltb_spec x 0x80); [lia|]. destruct (N.ltb_spec x 0x800); [lia|]. destruct (N.ltb_spec x 0x10000); [|lia].
  assert (E1 : x / 4096 = a - 224) by (symmetry; apply (N.div_unique x 4096 _ ((b - 128) * 64 + (c - 128))); lia).
  assert (E2 : x / 64 = (a - 224) * 64 + (b - 128)) by (symmetry; apply (N.div_unique x 64 _ (c - 128)); lia).
  assert (E3 : x mod 64 = c - 128) by (symmetry; apply (N.mod_unique x 64 ((a - 224) * 64 + (b - 128))); lia).
  assert (E4 : ((a - 224) * 64 + (b - 128)) mod 64 = b - 128) by (symmetry; apply (N.mod_unique _ 64 (a - 224)); lia).
  rewrite E1, E2, E3, E4. clear - H. f_equal; [|f_equal; [|f_equal]]; lia.
Qed.
Lemma enc4 a b c d : second4 a b && cont c && cont d = true -> exists x, scalar x /\ enc x = [a; b; c; d].
Proof.
  unfold second4, cont, scalar, enc. intros H. exists ((a - 240) * 262144 + (b - 128) * 4096 + (c - 128) * 64 + (d - 128)).
  remember ((a - 240) * 262144 + (b - 128) * 4096 + (c - 128) * 64 + (d - 128)) as x eqn:E. split; [lia|].
  destruct (N.ltb_spec x 0x80); [lia|]. destruct (N.ltb_spec x 0x800); [lia|]. destruct (N.ltb_spec x 0x10000); [lia|].
  assert (E0 : x / 262144 = a - 240) by (symmetry; apply (N.div_unique x 262144 _ ((b - 128) * 4096 + (c - 128) * 64 + (d - 128))); lia).
  assert (E1 : x / 4096 = (a - 240) * 64 + (b - 128)) by (symmetry; apply (N.div_unique x 4096 _ ((c - 128) * 64 + (d - 128))); lia).
  assert (E2 : x / 64 = ((a - 240) * 64 + (b - 128)) * 64 + (c - 128)) by (symmetry; apply (N.div_unique x 64 _ (d - 128)); lia).
  assert (E3 : x mod 64 = d - 128) by (symmetry; apply (N.mod_unique x 64 (((a - 240) * 64 + (b - 128)) * 64 + (c - 128))); lia).
  assert (E4 : ((a - 240) * 64 + (b - 128)) mod 64 = b - 128) by (symmetry; apply (N.mod_unique _ 64 (a - 240)); lia).
  assert (E5 : (((a - 240) * 64 + (b - 128)) * 64 + (c - 128)) mod 64 = c - 128) by (symmetry; apply (N.mod_unique _ 64 ((a - 240) * 64 + (b - 128))); lia).
  rewrite E0, E1, E2, E3, E4, E5. clear - H. f_equal; [|f_equal; [|f_equal; [|f_equal]]]; lia.
Qed.
Lemma utf8_cons c s : scalar c -> utf8 s -> utf8 (enc c ++ s).
Proof. intros Hc (cs & F & ->). exists (c :: cs). split; [constructor; assumption|reflexivity]. Qed.
Lemma utf8_one a s : a < 128 -> utf8 s -> utf8 (a :: s).
Proof.
  intros Ha Hs. change (a :: s) with ([a] ++ s). replace [a] with (enc a); [apply utf8_cons; [unfold scalar; lia|exact Hs]|].
  unfold enc. destruct (N.ltb_spec a 0x80); [reflexivity|lia].
Qed.
Lemma utf8_rep s : utf8 s -> utf8 (replacement ++ s).
Proof. intros Hs. change replacement with (enc 0xFFFD). apply utf8_cons; [unfold scalar; lia|exact Hs]. Qed.
Theorem valid_utf8 : forall s, utf8 (toValid s).
Proof.
  assert (G : forall n s, (length s <= n)%nat -> utf8 (toValid s)).
  { induction n as [|n IH]; intros s L; (destruct s as [|a t]; [exists []; split; [constructor|reflexivity]|]); cbn [length] in L; [lia|].
    assert (It : utf8 (toValid t)) by (apply IH; lia).
    cbn [toValid]. destruct (N.ltb_spec a 128); [apply utf8_one; assumption|].
    destruct t as [|b t2]; [apply utf8_rep, It|].
    destruct (second2 a b) eqn:E2.
    { destruct (enc2 _ _ E2) as (x & Hx & E). change (a :: b :: toValid t2) with ([a; b] ++ toValid t2). rewrite <- E.
      apply utf8_cons; [exact Hx|]. apply IH. cbn [length] in L; lia. }
    destruct t2 as [|c t3]; [apply utf8_rep, It|].
    destruct (second3 a b && cont c) eqn:E3.
    { destruct (enc3 _ _ _ E3) as (x & Hx & E). change (a :: b :: c :: toValid t3) with ([a; b; c] ++ toValid t3). rewrite <- E.
      apply utf8_cons; [exact Hx|]. apply IH. cbn [length] in L; lia. }
    destruct t3 as [|d t4]; [apply utf8_rep, It|].
    destruct (second4 a b && cont c && cont d) eqn:E4; [|apply utf8_rep, It].
    destruct (enc4 _ _ _ _ E4) as (x & Hx & E). change (a :: b :: c :: d :: toValid t4) with ([a; b; c; d] ++ toValid t4). rewrite <- E.
    apply utf8_cons; [exact Hx|]. apply IH. cbn [length] in L; lia. }
  intros s. exact (G (length s) s (le_n _)).
Qed.
Lemma toValid_enc c s : scalar c -> toValid (enc c ++ s) = enc c ++ toValid s.
Proof.
  unfold scalar. intros Hc. unfold enc.
  destruct (N.ltb_spec c 0x80); [cbn [app toValid]; destruct (N.ltb_spec c 128); [reflexivity|lia]|].
  destruct (N.ltb_spec c 0x800).
  { assert (A : 2 <= c / 64 < 32) by (split; [apply N.div_le_lower_bound; lia|apply N.div_lt_upper_bound; lia]).
    pose proof (N.mod_lt c 64 ltac:(lia)). cbn [app toValid].
    destruct (N.ltb_spec (0xC0 + c / 64) 128); [lia|].
    replace (second2 (0xC0 + c / 64) (0x80 + c mod 64)) with true; [reflexivity|]. unfold second2, cont. lia. }
  pose proof (N.mod_lt c 64 ltac:(lia)). pose proof (N.mod_lt (c / 64) 64 ltac:(lia)).
  destruct (N.ltb_spec c 0x10000).
  { pose proof (N.div_mod c 64 ltac:(lia)). pose proof (N.div_mod (c / 64) 64 ltac:(lia)).
    assert (D : c / 64 / 64 = c / 4096) by (rewrite N.div_div by lia; reflexivity). rewrite D in *.
    cbn [app toValid]. destruct (N.ltb_spec (0xE0 + c / 4096) 128); [lia|].
    replace (second2 (0xE0 + c / 4096) (0x80 + c / 64 mod 64)) with false by (unfold second2, cont; lia).
    replace (second3 (0xE0 + c / 4096) (0x80 + c / 64 mod 64) && cont (0x80 + c mod 64)) with true; [reflexivity|].
    unfold second3, cont. lia. }
  pose proof (N.mod_lt (c / 4096) 64 ltac:(lia)).
  pose proof (N.div_mod c 64 ltac:(lia)). pose proof (N.div_mod (c / 64) 64 ltac:(lia)). pose proof (N.div_mod (c / 4096) 64 ltac:(lia)).
  assert (D : c / 64 / 64 = c / 4096) by (rewrite N.div_div by lia; reflexivity).
  assert (D2 : c / 4096 / 64 = c / 262144) by (rewrite N.div_div by lia; reflexivity). rewrite D in *. rewrite D2 in *.
  cbn [app toValid]. destruct (N.ltb_spec (0xF0 + c / 262144) 128); [lia|].
  replace (second2 (0xF0 + c / 262144) (0x80 + c / 4096 mod 64)) with false by (unfold second2, cont; lia).
  replace (second3 (0xF0 + c / 262144) (0x80 + c / 4096 mod 64) && cont (0x80 + c / 64 mod 64)) with false by (unfold second3, cont; lia).
  replace (second4 (0xF0 + c / 262144) (0x80 + c / 4096 mod 64) && cont (0x80 + c / 64 mod 64) && cont (0x80 + c mod 64)) with true; [reflexivity|].
  unfold second4, cont. lia.
Qed.
Theorem toValid_id s : utf8 s <-> toValid s = s.
Proof.
  split; [|intros <-; apply valid_utf8]. intros (cs & F & ->).
  induction F as [|c cs Hc F IH]; [reflexivity|]. cbn [List.map concat]. rewrite toValid_enc, IH by exact Hc. reflexivity.
Qed.
Lemma text_shown s : shows_text s (jsonText s).
Proof. exists (toValid s). split; [reflexivity|]. split; [apply valid_utf8|]. apply toValid_id. Qed.
Lemma num_shown n : shows_num n (jsonNum n).
Proof. intros Hn. exists (itoa n). split; [reflexivity|]. apply itoa_decimal, Hn. Qed.

(** ** members *)
Lemma called_key k s : called k s <-> keyIs k (text s) = true. Proof. symmetry. apply (keyIs_spec k (text s) s eq_refl). Qed.
Lemma member_by l name (P : jvalue -> Prop) v : List.map snd (List.filter (fun kv => keyIs (fst kv) (text name)) l) = [v] -> P v -> member l name P.
Proof.
  intros E Hv.
  assert (I : forall k w, In (k, w) l -> called k name -> In w [v]).
  { intros k w Hi Hc. rewrite <- E. apply (in_map snd _ (k, w)). apply List.filter_In. split; [exact Hi|]. apply called_key, Hc. }
  split.
  - assert (X : In v (List.map snd (List.filter (fun kv => keyIs (fst kv) (text name)) l))) by (rewrite E; left; reflexivity).
    apply in_map_iff in X as ((k & w) & <- & X). apply List.filter_In in X as (X & K). exists k, w. split; [exact X|]. apply called_key, K.
  - intros k w Hi Hc. destruct (I k w Hi Hc) as [<-|[]]. exact Hv.
Qed.

Ltac has_member := eapply member_by; [reflexivity|].
Ltac shown := first [apply text_shown | apply num_shown | reflexivity].
Lemma device_shown tm d : shows_device tm d (jsonDevice tm d).
Proof. eexists. split; [reflexivity|]. repeat (split; [has_member; shown|]). reflexivity. Qed.
Lemma meta_shown g : shows_meta g (jsonMeta g).
Proof. eexists. split; [reflexivity|]. repeat (split; [has_member; shown|]). has_member; shown. Qed.

(** ** times *)
Lemma dec2_d2 n : n < 100 -> dec2 n = d2 n.
Proof. intros H. unfold dec2, d2. rewrite (N.mod_small (n / 10)) by (apply N.div_lt_upper_bound; lia). reflexivity. Qed.
Lemma d2_inj a b : a < 100 -> b < 100 -> d2 a = d2 b -> a = b.
Proof.
  intros Ha Hb H. unfold d2 in H. rewrite !(N.mod_small (_ / 10)) in H by (apply N.div_lt_upper_bound; lia).
  injection H as H1 H2. rewrite (N.div_mod a 10), (N.div_mod b 10) by lia. f_equal; [f_equal|]; lia.
Qed.
Lemma time_shown t : civil_valid t -> c_year t < 10000 -> jsonTime t = JText (stamp t 0).
Proof.
  intros (V1 & V2 & _ & _ & _ & V3 & V4 & V5) Y. unfold jsonTime, stamp.
  rewrite !dec2_d2 by (try (apply N.mod_lt; lia); try (apply N.div_lt_upper_bound; lia); lia). reflexivity.
Qed.
Lemma d2_len n : length (d2 n) = 2%nat. Proof. reflexivity. Qed.
Lemma stamp_inj t t0 ahead : civil_valid t -> civil_valid t0 -> c_year t < 10000 -> c_year t0 < 10000 -> stamp t ahead = stamp t0 0 -> t = t0 /\ ahead = 0%Z.
Proof.
  intros (V1 & V2 & _ & _ & _ & V3 & V4 & V5) (W1 & W2 & _ & _ & _ & W3 & W4 & W5) Y Y0 H. unfold stamp in H.
  assert (A : ahead = 0%Z).
  { destruct (Z.eqb_spec ahead 0); [assumption|exfalso]. apply (f_equal (@length N)) in H. rewrite !app_length, !d2_len in H.
    destruct (Z.ltb ahead 0); cbn in H; lia. }
  split; [|exact A]. subst ahead.
  apply app_inj_1 in H as (H1 & H); [|reflexivity]. apply app_inj_1 in H as (H2 & H); [|reflexivity].
  apply app_inj_1 in H as (_ & H); [|reflexivity]. apply app_inj_1 in H as (H3 & H); [|reflexivity].
  apply app_inj_1 in H as (_ & H); [|reflexivity]. apply app_inj_1 in H as (H4 & H); [|reflexivity].
  apply app_inj_1 in H as (_ & H); [|reflexivity]. apply app_inj_1 in H as (H5 & H); [|reflexivity].
  apply app_inj_1 in H as (_ & H); [|reflexivity]. apply app_inj_1 in H as (H6 & H); [|reflexivity].
  apply app_inj_1 in H as (_ & H); [|reflexivity]. apply app_inj_1 in H as (H7 & H); [|reflexivity].
  apply d2_inj in H1; [|apply N.div_lt_upper_bound; lia|apply N.div_lt_upper_bound; lia].
  apply d2_inj in H2; [|apply N.mod_lt; lia|apply N.mod_lt; lia].
  apply d2_inj in H3; [|lia|lia]. apply d2_inj in H4; [|lia|lia]. apply d2_inj in H5; [|lia|lia].
  apply d2_inj in H6; [|lia|lia]. apply d2_inj in H7; [|lia|lia].
  pose proof (N.div_mod (c_year t) 100 ltac:(lia)) as Q. rewrite H1, H2, <- N.div_mod in Q by lia.
  destruct t, t0; cbn in *; congruence.
Qed.
(** the zone is never shown, so an instant reported in local time is shown as another one *)
Lemma time_off secs t0 ahead : civil_valid t0 -> c_year t0 < 10000 -> ahead <> 0%Z -> ~ shows_instant secs t0 ahead (jsonTime t0).
Proof.
  intros V Y Ha (t & a & Vt & Yt & E & Q). rewrite time_shown in E by assumption. assert (E' : stamp t a = stamp t0 0) by congruence.
  apply stamp_inj in E' as (-> & ->); try assumption. lia.
Qed.

Lemma location_shown flt g : shows_location flt g (jsonGeo flt g).
Proof.
  eexists. split; [reflexivity|]. split; [has_member; shown|]. split; [has_member; apply meta_shown|].
  split; [has_member; eexists; split; [reflexivity|]; repeat (split; [has_member; shown|]); has_member; shown|].
  split; [has_member; eexists; split; [reflexivity|]; repeat (split; [has_member; shown|]); has_member; shown|].
  has_member. intros V Y. apply time_shown; assumption.
Qed.
Lemma both_shown flt d g : shows_both flt d g (jsonDeviceGeo flt d g).
Proof. eexists. split; [reflexivity|]. repeat (split; [has_member; shown|]). has_member. apply location_shown. Qed.

(** ** the answers *)
Theorem list_shows tm flt err e s : consistent s ->
  exists a s' ds, run (http e RList) s = (Ok a, s') /\ rs_status a = 200 /\ base.NoDup ds /\ (forall d, d ∈ ds <-> exists ph, devAt s ph = Some d)
    /\ exists vs, List.map (render tm flt err) (rs_values a) = [JArr vs] /\ Forall2 (shows_device tm) ds vs.
Proof.
  intros C. destruct (http_answers e s RList C) as (a & s' & E & (ds & -> & N & H) & _).
  exists (mkResp 200 [JDevs ds]), s', ds. split; [exact E|]. split; [reflexivity|]. split; [exact N|]. split; [exact H|].
  exists (List.map (jsonDevice tm) ds). split; [reflexivity|]. clear. induction ds; constructor; [apply device_shown|assumption].
Qed.
Theorem geo_shows tm flt err e s ph d ws g : consistent s -> devAt s ph = Some d -> track s ph ws -> last_of ws = Some g -> (length ws mod 100 <> 0)%nat ->
  exists a s' v, run (http e (RGeo ph)) s = (Ok a, s') /\ rs_status a = 200
    /\ List.map (render tm flt err) (rs_values a) = [v] /\ shows_both flt d g v.
Proof.
  intros C Hd Ht Hg Hn. destruct (http_answers e s (RGeo ph) C) as (a & s' & E & H & _). cbn [http_reply] in H. rewrite Hd in H.
  specialize (H ws Ht). destruct (Nat.eqb_spec (length ws mod 100) 0) as [|_]; [contradiction|]. destruct H as (g' & Hg' & ->).
  assert (g' = g) as -> by congruence. exists (mkResp 200 [JGeo d g]), s', (jsonDeviceGeo flt d g).
  split; [exact E|]. split; [reflexivity|]. split; [reflexivity|]. apply both_shown.
Qed.

(** ... but not a text that is not UTF-8, nor when a device was last heard of, nor when a location was reported *)
Lemma lacks_by l name : List.forallb (fun kv => negb (keyIs (fst kv) (text name))) l = true -> lacks l name.
Proof. intros H k v Hi Hc. apply List.forallb_forall with (x := (k, v)) in H; [|exact Hi]. apply called_key in Hc. cbn [fst] in H. rewrite Hc in H. discriminate. Qed.
Theorem list_garbles tm flt err e s ph d : consistent s -> devAt s ph = Some d -> ~ utf8 (d_id d) ->
  exists a s' vs, run (http e RList) s = (Ok a, s') /\ List.map (render tm flt err) (rs_values a) = [JArr vs]
    /\ forall l, In (JObj l) vs -> ~ member l "id" (eq (JText (d_id d))).
Proof.
  intros C Hd Hu. destruct (http_answers e s RList C) as (a & s' & E & (ds & -> & N & H) & _).
  exists (mkResp 200 [JDevs ds]), s', (List.map (jsonDevice tm) ds). split; [exact E|]. split; [reflexivity|].
  intros l Hl M. apply in_map_iff in Hl as (d' & El & _). destruct (device_shown tm d') as (l' & E' & ((k & v & Hi & Hc) & A) & _).
  rewrite El in E'. injection E' as <-. destruct (A k v Hi Hc) as (t & -> & U & _).
  destruct M as (_ & M). specialize (M k (JText t) Hi Hc). injection M as <-. exact (Hu U).
Qed.
Theorem geo_hides tm flt err e s ph d ws g secs : consistent s -> devAt s ph = Some d -> track s ph ws -> last_of ws = Some g -> (length ws mod 100 <> 0)%nat ->
  exists a s' l, run (http e (RGeo ph)) s = (Ok a, s') /\ List.map (render tm flt err) (rs_values a) = [JObj l]
    /\ lacks l "lastComTime" /\ member l "lastestComTime" (eq (JObj []))
    /\ (civil_valid (dg_time g) -> c_year (dg_time g) < 10000 ->
         member l "gis" (fun x => exists m, x = JObj m /\ member m "time" (fun y => ~ shows_instant secs (dg_time g) 480 y))).
Proof.
  intros C Hd Ht Hg Hn. destruct (http_answers e s (RGeo ph) C) as (a & s' & E & H & _). cbn [http_reply] in H. rewrite Hd in H.
  specialize (H ws Ht). destruct (Nat.eqb_spec (length ws mod 100) 0) as [|_]; [contradiction|]. destruct H as (g' & Hg' & ->).
  assert (g' = g) as -> by congruence. exists (mkResp 200 [JGeo d g]), s'. eexists.
  split; [exact E|]. split; [reflexivity|]. split; [apply lacks_by; reflexivity|]. split; [has_member; reflexivity|].
  intros V Y. has_member. eexists. split; [reflexivity|]. has_member. apply time_off; [exact V|exact Y|discriminate].
Qed.
