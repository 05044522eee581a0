(** Settings given as JSON (C140) *)
From Coq Require Import String Ascii.
From stdpp Require Import gmap.
From Verif Require Import Base HexM TimeM HeaderM ParamsM GeoM MsgM PacketM FrameM ProgM RingM StateM ProcM ServerM ClientM ConcM HttpM JsonM
  SpecState SpecCodec SpecHttp SpecCmd SpecJson HexP HeaderP FrameP MsgP CodecP CodecP2 CodecP3 DecP ProgP StateP ServerP SessP FleetP LinkP HttpP ParLoopP.
Local Open Scope N_scope.

(** * Members of objects *)
Lemma lower_same a b : lowerCase a = lowerCase b <-> same_letter a b.
Proof.
  unfold lowerCase, same_letter. destruct (N.leb_spec 65 a), (N.leb_spec a 90), (N.leb_spec 65 b), (N.leb_spec b 90); cbn [andb]; lia.
Qed.
Lemma lower_all k n : List.map lowerCase k = List.map lowerCase n <-> Forall2 same_letter k n.
Proof.
  split.
  - revert n. induction k as [|a k IH]; intros [|b n] H; try discriminate H; constructor.
    + apply lower_same. cbn in H. congruence.
    + apply IH. cbn in H. congruence.
  - induction 1 as [|a b k n Ha _ IH]; [reflexivity|]. cbn. rewrite IH. f_equal. apply lower_same, Ha.
Qed.
Lemma keyIs_spec k name s : text s = name -> keyIs k name = true <-> called k s.
Proof. intros <-. unfold keyIs, called. rewrite bool_decide_eq_true. apply lower_all. Qed.
Lemma keyIs_not k name s : text s = name -> keyIs k name = false <-> ~ called k s.
Proof. intros H. rewrite <- (keyIs_spec k name s H). destruct (keyIs k name); split; congruence. Qed.

Section Field.
Context {A : Type} (name : str) (s : string) (f : A -> jvalue -> A * bool) (Hn : text s = name).
Lemma field_none l old : lacks l s -> bindField name f l old = (old, false).
Proof.
  induction l as [|[k v] t IH]; intros H; [reflexivity|]. cbn [bindField].
  rewrite (proj2 (keyIs_not k name s Hn)) by (apply (H k v); left; reflexivity).
  apply IH. intros k' v' Hi. apply (H k' v'). right. exact Hi.
Qed.
Lemma field_same l x : (forall k v, In (k, v) l -> called k s -> forall old, f old v = (x, false)) ->
  bindField name f l x = (x, false).
Proof.
  induction l as [|[k v] t IH]; intros H; [reflexivity|]. cbn [bindField].
  assert (Ht : bindField name f t x = (x, false)) by (apply IH; intros k' v' Hi; apply (H k' v'); right; exact Hi).
  destruct (keyIs k name) eqn:Ek; [|exact Ht].
  rewrite (H k v (or_introl eq_refl) (proj1 (keyIs_spec k name s Hn) Ek) x), Ht. reflexivity.
Qed.
Lemma field_all l x old : (exists k v, In (k, v) l /\ called k s) ->
  (forall k v, In (k, v) l -> called k s -> forall o, f o v = (x, false)) -> bindField name f l old = (x, false).
Proof.
  revert old. induction l as [|[k v] t IH]; intros old (k0 & v0 & Hi & Hc) H; [destruct Hi|]. cbn [bindField].
  destruct (keyIs k name) eqn:Ek.
  - rewrite (H k v (or_introl eq_refl) (proj1 (keyIs_spec k name s Hn) Ek) old).
    rewrite field_same by (intros k' v' Hi'; apply (H k' v'); right; exact Hi'). reflexivity.
  - apply IH; [|intros k' v' Hi'; apply (H k' v'); right; exact Hi'].
    destruct Hi as [E|Hi]; [|eauto]. injection E as -> ->. apply (keyIs_spec k0 name s Hn) in Hc. congruence.
Qed.
(** the content alone, whether or not there is an error *)
Lemma field_keeps (P : A -> Prop) l : (forall k v, In (k, v) l -> called k s -> forall o, P o -> P (fst (f o v))) ->
  forall old, P old -> P (fst (bindField name f l old)).
Proof.
  induction l as [|[k v] t IH]; intros H old Ho; [exact Ho|]. cbn [bindField].
  assert (Ht : forall o, P o -> P (fst (bindField name f t o))) by (apply IH; intros k' v' Hi'; apply (H k' v'); right; exact Hi').
  destruct (keyIs k name) eqn:Ek; [|exact (Ht _ Ho)].
  pose proof (H k v (or_introl eq_refl) (proj1 (keyIs_spec k name s Hn) Ek) old Ho) as Hx.
  destruct (f old v) as [x er]. cbn [fst] in Hx. apply Ht in Hx. destruct (bindField name f t x). exact Hx.
Qed.
Lemma field_fst l x old : (exists k v, In (k, v) l /\ called k s) ->
  (forall k v, In (k, v) l -> called k s -> forall o, fst (f o v) = x) -> fst (bindField name f l old) = x.
Proof.
  revert old. induction l as [|[k v] t IH]; intros old (k0 & v0 & Hi & Hc) H; [destruct Hi|]. cbn [bindField].
  assert (Ht : forall k v, In (k, v) t -> called k s -> forall o, fst (f o v) = x) by (intros k' v' Hi'; apply (H k' v'); right; exact Hi').
  destruct (keyIs k name) eqn:Ek.
  - pose proof (H k v (or_introl eq_refl) (proj1 (keyIs_spec k name s Hn) Ek) old) as Hx.
    destruct (f old v) as [y er]. cbn [fst] in Hx. subst y.
    pose proof (field_keeps (fun y => y = x) t (fun k v Hi Hc o _ => Ht k v Hi Hc o) x eq_refl) as Hy.
    destruct (bindField name f t x). exact Hy.
  - apply IH; [|exact Ht].
    destruct Hi as [E|Hi]; [|eauto]. injection E as -> ->. apply (keyIs_spec k0 name s Hn) in Hc. congruence.
Qed.
Lemma field_error l (Q : jvalue -> Prop) : (forall old v, snd (f old v) = false <-> Q v) ->
  forall old, snd (bindField name f l old) = false <-> each l s Q.
Proof.
  intros H. induction l as [|[k v] t IH]; intros old; cbn [bindField].
  { split; [intros _ k v []|reflexivity]. }
  destruct (keyIs k name) eqn:Ek.
  - pose proof (H old v) as Hv. destruct (f old v) as [x er]. pose proof (IH x) as Hx. destruct (bindField name f t x) as [y er'].
    cbn [snd] in *. rewrite orb_false_iff, Hv, Hx. split.
    + intros [Hq He] k' v' [E|Hi] Hc; [injection E as <- <-; exact Hq|exact (He k' v' Hi Hc)].
    + intros He. split; [apply (He k v); [left; reflexivity|apply (keyIs_spec k name s Hn), Ek]|].
      intros k' v' Hi. apply (He k' v'). right. exact Hi.
  - rewrite IH. split.
    + intros He k' v' [E|Hi] Hc; [|exact (He k' v' Hi Hc)].
      injection E as -> ->. apply (keyIs_not k' name s Hn) in Ek. contradiction.
    + intros He k' v' Hi. apply (He k' v'). right. exact Hi.
Qed.
End Field.
Lemma member_in l name P : member l name P -> exists k v, In (k, v) l /\ called k name /\ P v.
Proof. intros ((k & v & Hi & Hc) & H). exists k, v. eauto. Qed.

(** * Numbers *)
Lemma parseDigits_spec t a : parseDigits t a = if digits t then Some (fold_left (fun a c => 10 * a + (c - 48)) t a) else None.
Proof.
  revert a. induction t as [|c t IH]; intros a; [reflexivity|]. cbn [parseDigits digits forallb fold_left].
  destruct ((48 <=? c) && (c <=? 57)); [|reflexivity]. apply IH.
Qed.
Lemma bindUint_error max old v : snd (bindUint max old v) = false <-> unsigned max v.
Proof.
  unfold unsigned. destruct v as [|b|t|s|l|l]; cbn [bindUint snd]; try (split; [discriminate|intros [E|(t & n & E & _)]; discriminate E]).
  - tauto.
  - case_bool_decide as Ht.
    { cbn [snd]. split; [discriminate|]. intros [E|(t' & n & E & Hn & _)]; [discriminate E|]. injection E as <-. contradiction. }
    rewrite parseDigits_spec. destruct (digits t) eqn:Hd.
    2:{ cbn [snd]. split; [discriminate|]. intros [E|(t' & n & E & _ & Hd' & _)]; [discriminate E|]. injection E as <-. congruence. }
    destruct (N.leb_spec (fold_left (fun a c => 10 * a + (c - 48)) t 0) max) as [Hm|Hm]; cbn [snd].
    + split; [|reflexivity]. intros _. right. exists t, (dec_value t). auto.
    + split; [discriminate|]. intros [E|(t' & n & E & _ & _ & Hv & Hn)]; [discriminate E|]. injection E as <-. unfold dec_value in Hv. lia.
Qed.
Lemma decimal_digits t n : decimal t n -> t <> [] /\ digits t = true /\ dec_value t = n.
Proof.
  intros (Hn & Hf & _ & Hv). split; [exact Hn|]. split; [|exact Hv]. unfold digits. apply forallb_forall. intros c Hc.
  rewrite List.Forall_forall in Hf. specialize (Hf c Hc). apply andb_true_iff. rewrite !N.leb_le. exact Hf.
Qed.
Lemma bindUint_number max n v old : number n v -> n <= max -> bindUint max old v = (n, false).
Proof.
  intros (t & -> & Hd) Hm. destruct (decimal_digits t n Hd) as (Hn & Hdg & Hv). cbn [bindUint].
  rewrite bool_decide_false by exact Hn. rewrite parseDigits_spec, Hdg. fold (dec_value t). rewrite Hv.
  apply N.leb_le in Hm. rewrite Hm. reflexivity.
Qed.
Lemma number_field l name s max n : text s = name -> number_or_0 l s max n -> bindField name (bindUint max) l 0 = (n, false).
Proof.
  intros Hs (Hm & [[He H]|[H ->]]).
  - apply (field_all name s _ Hs); [exact He|]. intros k v Hi Hc old. apply bindUint_number; [exact (H k v Hi Hc)|exact Hm].
  - exact (field_none name s _ Hs l 0 H).
Qed.

(** * Errors *)
Fixpoint numbersOk_readable num v {struct v} : numbersOk num v = true <-> readable num v.
Proof.
  destruct v as [|b|t|s|l|l]; cbn [numbersOk].
  - split; [intros _; constructor|reflexivity].
  - split; [intros _; constructor|reflexivity].
  - destruct (num t) as [z|] eqn:E; split; intros H; try discriminate H; try reflexivity; [econstructor; exact E|].
    inversion H as [| |t' z E'| | |]. congruence.
  - split; [intros _; constructor|reflexivity].
  - assert (G : forallb (numbersOk num) l = true <-> Forall (readable num) l).
    { induction l as [|x t IH]; [split; [constructor|reflexivity]|]. cbn [forallb].
      rewrite andb_true_iff, Forall_cons_iff, IH. rewrite (numbersOk_readable num x). reflexivity. }
    rewrite G. split; [intros H; constructor; exact H|]. intros H. inversion H. assumption.
  - assert (G : forallb (fun kv => numbersOk num (snd kv)) l = true <-> Forall (fun kv => readable num (snd kv)) l).
    { induction l as [|[k x] t IH]; [split; [constructor|reflexivity]|]. cbn [forallb snd].
      rewrite andb_true_iff, Forall_cons_iff, IH. cbn [snd]. rewrite (numbersOk_readable num x). reflexivity. }
    rewrite G. split; [intros H; constructor; exact H|]. intros H. inversion H. assumption.
Qed.
Lemma bindAny_error num old v : snd (bindAny num old v) = false <-> readable num v.
Proof.
  rewrite <- numbersOk_readable. destruct v as [|b|t|s|l|l]; cbn [bindAny]; try (cbn; tauto).
  - cbn [numbersOk]. destruct (num t); cbn; split; congruence.
  - cbn [snd]. destruct (numbersOk num (JArr l)); split; cbn; congruence.
  - cbn [snd]. destruct (numbersOk num (JObj l)); split; cbn; congruence.
Qed.
Lemma bindItem_error num v : snd (bindItem num v) = false <-> typed_item num v.
Proof.
  unfold typed_item. destruct v as [|b|t|s|l|l]; cbn [bindItem snd]; try (split; [discriminate|intros [E|(l' & E & _)]; discriminate E]); [tauto|].
  pose proof (field_error kId "paramId" (bindUint 4294967295) eq_refl l _ (bindUint_error 4294967295) 0) as H1.
  pose proof (field_error kLen "paramLen" (bindUint 255) eq_refl l _ (bindUint_error 255) 0) as H2.
  pose proof (field_error kValue "paramValue" (bindAny num) eq_refl l _ (bindAny_error num) VOther) as H3.
  destruct (bindField kId _ l 0), (bindField kLen _ l 0), (bindField kValue _ l VOther). cbn [snd] in *.
  rewrite !orb_false_iff, H1, H2, H3. split.
  - intros [[A B] C]. right. exists l. auto.
  - intros [E|(l' & E & A & B & C)]; [discriminate E|]. injection E as <-. auto.
Qed.
Lemma bindItems_error num old v : snd (bindItems num old v) = false <-> v = JNull \/ exists its, v = JArr its /\ Forall (typed_item num) its.
Proof.
  destruct v as [|b|t|s|l|l]; cbn [bindItems snd]; try (split; [discriminate|intros [E|(its & E & _)]; discriminate E]); [tauto|].
  split.
  - intros H. right. exists l. split; [reflexivity|]. induction l as [|x t IH]; [constructor|]. cbn [existsb] in H.
    apply orb_false_iff in H as [H1 H2]. constructor; [apply bindItem_error, H1|exact (IH H2)].
  - intros [E|(its & E & F)]; [discriminate E|]. injection E as <-. induction F as [|x t Hx _ IH]; [reflexivity|].
    cbn [existsb]. rewrite IH. apply bindItem_error in Hx. rewrite Hx. reflexivity.
Qed.
Lemma bindBody_error num v : snd (bindBody num (Some v)) = false <-> typed_body num v.
Proof.
  unfold typed_body. destruct v as [|b|t|s|l|l]; cbn [bindBody snd]; try (split; [discriminate|intros [E|(l' & E & _)]; discriminate E]); [tauto|].
  pose proof (field_error kCnt "paramCnt" (bindUint 255) eq_refl l _ (bindUint_error 255) 0) as H1.
  pose proof (field_error kParams "params" (bindItems num) eq_refl l _ (bindItems_error num) []) as H2.
  destruct (bindField kCnt _ l 0), (bindField kParams _ l []). cbn [snd] in *. rewrite orb_false_iff, H1, H2. split.
  - intros [A B]. right. exists l. auto.
  - intros [E|(l' & E & A & B)]; [discriminate E|]. injection E as <-. auto.
Qed.

(** * What is bound *)
Lemma bindAny_gives num x v old : exact_numbers num -> gives x v -> bindAny num old v = (x, false).
Proof.
  intros Hn. destruct x as [n|n|n|s|z|]; cbn [gives]; try tauto.
  - intros ->. reflexivity.
  - intros (n & Hlt & -> & t & -> & Hd). cbn [bindAny]. rewrite (Hn t n Hd Hlt). reflexivity.
Qed.
Lemma bindItem_item num v p : exact_numbers num -> item v p -> bindItem num v = (p, false).
Proof.
  intros Hn (l & -> & (Hi & Hid) & Hlt & Hl & Hv & Hva). cbn [bindItem].
  rewrite (field_all kId "paramId" _ eq_refl l (p_id p) 0 Hi).
  2:{ intros k v Hk Hc old. apply bindUint_number; [exact (Hid k v Hk Hc)|lia]. }
  rewrite (number_field l kLen "paramLen" 255 (p_len p) eq_refl Hl).
  rewrite (field_all kValue "paramValue" _ eq_refl l (p_val p) VOther Hv).
  2:{ intros k v Hk Hc old. apply bindAny_gives; [exact Hn|exact (Hva k v Hk Hc)]. }
  destruct p. reflexivity.
Qed.
Theorem bound num v d : exact_numbers num -> asks v d -> bindBody num (Some v) = (d, false).
Proof.
  intros Hn (Hp & l & -> & Hc & He & Hi). cbn [bindBody].
  rewrite (number_field l kCnt "paramCnt" 255 (dp_cnt d) eq_refl Hc).
  rewrite (field_all kParams "params" _ eq_refl l (dp_list d) [] He).
  2:{ intros k v Hk Hcl old. destruct (Hi k v Hk Hcl) as (its & -> & F). cbn [bindItems].
      assert (List.map (fun x => fst (bindItem num x)) its = dp_list d /\ existsb (fun x => snd (bindItem num x)) its = false) as [-> ->]; [|reflexivity].
      clear Hk. revert F. generalize (dp_list d). intros ps F.
      induction F as [|x p its ps Hx _ [IH1 IH2]]; [auto|]. cbn [List.map existsb]. rewrite (bindItem_item num x p Hn Hx), IH1, IH2. auto. }
  destruct d. cbn in *. subst. reflexivity.
Qed.

(** * What is sent *)
Definition known_id (p : param) : bool := match paramType (p_id p) with Some _ => true | None => false end.
Lemma known_only o ps pkt : paramsEncodeLoop o ps pkt = paramsEncodeLoop o (List.filter known_id ps) pkt.
Proof. rewrite (paramsEncode_skip o ps pkt). f_equal. apply filter_ext. intros p. unfold known_id. now rewrite argKind_type. Qed.
Lemma sent_prefix o ps w qs c : params_list_sent o ps w qs -> (c <= length ps)%nat ->
  exists w1 w2, w = w1 ++ w2 /\ params_list_sent o (firstn c ps) w1 (firstn c qs).
Proof.
  intros H. revert c. induction H as [|p w q ps ws qs Hp _ IH]; intros c Hc.
  - exists [], []. rewrite !firstn_nil. split; [reflexivity|constructor].
  - destruct c as [|c]; [exists [], (w ++ ws); split; [reflexivity|constructor]|].
    destruct (IH c) as (w1 & w2 & -> & H); [cbn in Hc; lia|]. exists (w ++ w1), w2. split; [rewrite app_assoc; reflexivity|].
    cbn [firstn]. constructor; assumption.
Qed.
Lemma setting_delivered o h ps w qs : hdr_wf h -> dp_cnt ps < 256 -> params_list_sent o (List.filter known_id (dp_list ps)) w qs ->
  (N.to_nat (dp_cnt ps) <= length qs)%nat -> (length w < 1022)%nat ->
  delivered o h (B8103 0 (Some ps)) (B8103 (dp_cnt ps) (Some (mkParams (h_phone h) (dp_cnt ps) (firstn (N.to_nat (dp_cnt ps)) qs)))).
Proof.
  intros Hh Hc Hs Hl Hw. destruct (paramsLoop_roundtrip o _ _ _ Hs) as (Hlen & He & _).
  destruct (sent_prefix o _ _ _ (N.to_nat (dp_cnt ps)) Hs) as (w1 & w2 & -> & Hp); [lia|].
  destruct (paramsLoop_roundtrip o _ _ _ Hp) as (_ & _ & Hd).
  set (b := dp_cnt ps :: (w1 ++ w2)).
  assert (Eb : encBody o h (B8103 0 (Some ps)) = Ok b).
  { cbn [encBody]. unfold paramsEncode. rewrite known_only, He. reflexivity. }
  destruct (packet_delivered o h _ b Hh Eb) as (frm & p & E1 & E2 & Eh & Ed); [unfold b; cbn [length]; lia|].
  exists (N.of_nat (length b)). intros now. exists frm, p. split; [exact E1|]. split; [exact E2|].
  split; [rewrite Eh; reflexivity|]. split; [rewrite Ed; reflexivity|].
  unfold msgDecode. destruct p as [hd [dat spr] code vf]. cbn [pk_hdr pk_body sl_data] in *. subst hd dat.
  cbn [kind_of decBody]. unfold rd_bind at 1.
  pose proof (reads_byte O (dp_cnt ps) [] (w1 ++ w2) spr eq_refl) as R. cbn [app] in R. unfold b. rewrite R.
  unfold rd_bind at 1. pose proof (rd_rest_spec [dp_cnt ps] (w1 ++ w2) spr) as R2. cbn [app length Nat.add] in R2 |- *. rewrite R2.
  unfold rd_bind, rd_lift. unfold paramsDecode. cbn [hdr_set_len h_phone].
  pose proof (Hd O [] w2 spr eq_refl) as R3. rewrite firstn_length_le in R3 by exact Hl. cbn [app] in R3. rewrite R3. reflexivity.
Qed.

(** * Requests *)
Section Req.
Context (e : env) (num : str -> option Z) (s : st) (ph : str) (d : device) (x : session) (k : conn).
Context (C : consistent s) (Hd : devAt s ph = Some d) (Hx : sessAt s (d_sid d) = Some x).
Context (Hk : st_conns s !! ss_conn x = Some k) (Ho : cn_open k = true).
Lemma has_session : exists sl, st_byID s !! d_sid d = Some sl.
Proof. unfold sessAt in Hx. destruct (st_byID s !! d_sid d); [eauto|discriminate Hx]. Qed.
Lemma sn_low : (ss_sn x + 1) mod 65536 < 65536. Proof. apply N.mod_lt. discriminate. Qed.
Lemma put_sent bad ps b : paramsEncode (e_o e) ps = Ok b ->
  exists f s', encodePacket (e_o e) (platform_msg d 0x8103 ((ss_sn x + 1) mod 65536) (B8103 0 (Some ps))) = Ok f
    /\ run (http e (RPutParams ph bad ps None)) s = (Ok (if bad then mkResp 400 [JErr] else mkResp 200 []), s')
    /\ st_conns s' !! ss_conn x = Some (mkConn true (cn_out k ++ [f]))
    /\ (forall c, c <> ss_conn x -> st_conns s' !! c = st_conns s !! c).
Proof.
  intros Hb. destruct has_session as (sl & Hi).
  destruct (put_params e s ph d x k ps b bad C Hd Hx Hk Ho Hb) as (f & s' & Hf & E & Hc & Hc' & _).
  exists f, s'. split; [rewrite <- platform_cmd; exact Hf|]. split; [|auto].
  rewrite (run_http_put e s ph bad ps None C), Hd, Hi, E, Hb. destruct bad; reflexivity.
Qed.
Lemma dev_phone : d_phone d = ph.
Proof. destruct (devAt_Some s C ph d Hd) as (l & Hl & Hv & Hp). tauto. Qed.
Theorem setting_received v ps w qs : exact_numbers num -> d_ver d <> V2019 -> digits ph = true -> length ph = 12%nat ->
  asks v ps -> params_list_sent (e_o e) (List.filter known_id (dp_list ps)) w qs ->
  (N.to_nat (dp_cnt ps) <= length qs)%nat -> (length w < 1022)%nat ->
  exists f s', run (httpSetting e num ph (Some v) None) s = (Ok (mkResp 200 []), s')
    /\ st_conns s' !! ss_conn x = Some (mkConn true (cn_out k ++ [f]))
    /\ (forall c, c <> ss_conn x -> st_conns s' !! c = st_conns s !! c)
    /\ tells (e_o e) f ph 0x8103 ((ss_sn x + 1) mod 65536)
         (B8103 (dp_cnt ps) (Some (mkParams ph (dp_cnt ps) (firstn (N.to_nat (dp_cnt ps)) qs)))).
Proof.
  intros Hn Hv Hdg Hln Ha Hs Hc Hw. unfold httpSetting. rewrite (bound num v ps Hn Ha).
  assert (Hc' : dp_cnt ps < 256) by (destruct Ha as (_ & l & _ & (Hm & _) & _); lia).
  destruct (paramsLoop_roundtrip _ _ _ _ Hs) as (_ & He & _).
  destruct (put_sent false ps (dp_cnt ps :: w)) as (f & s' & Ef & E & Hc1 & Hc2).
  { unfold paramsEncode. rewrite known_only, He. reflexivity. }
  exists f, s'. split; [exact E|]. split; [exact Hc1|]. split; [exact Hc2|].
  pose proof (setting_delivered (e_o e) (lhdr ph 0x8103 ((ss_sn x + 1) mod 65536)) ps w qs
    (lhdr_wf ph 0x8103 _ Hdg Hln eq_refl sn_low) Hc' Hs Hc Hw) as Dl.
  destruct (delivered_reads _ _ _ _ Dl eq_refl) as (f' & Ef' & p & n & Dc & Hh & M).
  rewrite <- (order_put (e_o e) d ph ((ss_sn x + 1) mod 65536) false ps dev_phone Hv) in Ef'. cbn [order_for] in Ef'.
  assert (f' = f) by congruence. subst f'.
  exists p. rewrite Hh. repeat (split; [try exact Dc; reflexivity|]). rewrite <- Hh. exact M.
Qed.
Lemma setting_answered body : exists a s', run (httpSetting e num ph body None) s = (Ok a, s')
  /\ (a = mkResp 400 [JErr] <-> unbound num body)
  /\ match paramsEncode (e_o e) (fst (bindBody num body)) with
     | Panic => st_conns s' = st_conns s /\ (~ unbound num body -> a = mkResp 500 [])
     | _ => (exists f, st_conns s' !! ss_conn x = Some (mkConn true (cn_out k ++ [f]))) /\ (~ unbound num body -> a = mkResp 200 [])
     end.
Proof.
  assert (Hu : snd (bindBody num body) = true <-> unbound num body).
  { unfold unbound. destruct body as [v|]; [|split; [discriminate|reflexivity]].
    pose proof (bindBody_error num v) as H. destruct (snd (bindBody num (Some v))).
    - split; [|reflexivity]. intros _ v' [= <-] Ht. apply H in Ht. discriminate Ht.
    - split; [discriminate|]. intros Hv. exfalso. apply (Hv v eq_refl). apply H. reflexivity. }
  unfold httpSetting. destruct (bindBody num body) as [ps bad]. cbn [fst snd] in *.
  destruct has_session as (sl & Hi).
  destruct (params_encode (e_o e) ps) as [Hp|(b & Hp)]; rewrite Hp.
  - destruct (put_params_panics e s ph d x ps bad None C Hd Hx Hp) as (s' & E & Hc).
    exists (if bad then mkResp 400 [JErr] else mkResp 500 []), s'.
    rewrite (run_http_put e s ph bad ps None C), Hd, Hi, E, Hp. split; [reflexivity|]. rewrite <- Hu.
    destruct bad; split; [split; reflexivity| |split; discriminate|]; (split; [exact Hc|]); intros H; [destruct (H eq_refl)|reflexivity].
  - destruct (put_sent bad ps b Hp) as (f & s' & _ & E & Hc & _). exists (if bad then mkResp 400 [JErr] else mkResp 200 []), s'.
    split; [exact E|]. rewrite <- Hu.
    destruct bad; split; [split; reflexivity| |split; discriminate|]; (split; [exists f; exact Hc|]); intros H; [destruct (H eq_refl)|reflexivity].
Qed.
Lemma loop_panics o ps : Exists (fun p => paramEncode o p = Panic) ps -> forall pkt, paramsEncodeLoop o ps pkt = Panic.
Proof.
  induction 1 as [p t H|p t _ IH]; intros pkt; cbn [paramsEncodeLoop]; [rewrite H; reflexivity|].
  destruct (paramEncode o p); [apply IH|apply IH|reflexivity].
Qed.
Lemma spoiled o it : spoils it -> paramEncode o (fst (bindItem num it)) = Panic.
Proof.
  intros [->|(l & id & kd & -> & (Hm & Hid) & Hty & Hlt & He)]; [reflexivity|]. cbn [bindItem].
  rewrite (field_all kId "paramId" _ eq_refl l id 0 Hm).
  2:{ intros k' v Hk' Hc old. apply bindUint_number; [exact (Hid k' v Hk' Hc)|lia]. }
  destruct (bindField kLen (bindUint 255) l 0) as [ln e2].
  pose proof (field_keeps kValue "paramValue" (bindAny num) eq_refl
    (fun y => if numeric kd then forall z, y <> VF64 z /\ forall n, y <> VU8 n /\ y <> VU16 n /\ y <> VU32 n else forall t, y <> VStr t) l) as Hf.
  cbn beta in Hf. specialize (fun H => Hf H VOther).
  destruct (bindField kValue (bindAny num) l VOther) as [va e3]. cbn [fst] in *. 
  unfold paramEncode. cbn [p_id p_val]. rewrite argKind_type, Hty.
  enough (Hp : pencode o kd va = Panic) by (rewrite Hp; reflexivity).
  assert (Hva : if numeric kd then forall z, va <> VF64 z /\ forall n, va <> VU8 n /\ va <> VU16 n /\ va <> VU32 n else forall t, va <> VStr t).
  { apply Hf.
    - intros k' v Hk' Hc old Hold. pose proof (He k' v Hk' Hc) as Hw. unfold misfit in Hw. destruct (numeric kd).
      + destruct v; cbn [bindAny fst]; try (repeat split; discriminate). destruct (Hw t eq_refl).
      + destruct v; cbn [bindAny fst]; try discriminate; [destruct (num t); [discriminate|exact Hold]|destruct (Hw s0 eq_refl)].
    - destruct (numeric kd); repeat split; discriminate. }
  destruct kd; cbn [numeric] in Hva; destruct va as [n|n|n|t|z|]; try reflexivity;
    (destruct (Hva t eq_refl) || (destruct (Hva z) as [Hz _]; destruct (Hz eq_refl)) || (destruct (Hva 0%Z) as [_ Hz]; destruct (Hz n) as (H1 & H2 & H3); congruence)).
Qed.
Theorem setting_lost v l its it : v = JObj l -> member l "params" (fun a => a = JArr its) -> In it its -> spoils it ->
  exists a s', run (httpSetting e num ph (Some v) None) s = (Ok a, s') /\ st_conns s' = st_conns s
    /\ (typed_body num v -> a = mkResp 500 []) /\ (~ typed_body num v -> a = mkResp 400 [JErr]).
Proof.
  intros Hv (Hm & Hp) Hi Hs. destruct (setting_answered (Some v)) as (a & s' & E & Hu & H).
  assert (Hb : dp_list (fst (bindBody num (Some v))) = List.map (fun y => fst (bindItem num y)) its).
  { rewrite Hv. cbn [bindBody]. destruct (bindField kCnt (bindUint 255) l 0).
    pose proof (field_fst kParams "params" (bindItems num) eq_refl l (List.map (fun y => fst (bindItem num y)) its) [] Hm) as Hf.
    destruct (bindField kParams (bindItems num) l []). cbn [fst dp_list] in *. apply Hf.
    intros k' v' Hk' Hc old. rewrite (Hp k' v' Hk' Hc). reflexivity. }
  unfold paramsEncode in H. rewrite loop_panics in H.
  2:{ rewrite Hb. apply List.Exists_exists. exists (fst (bindItem num it)). split; [apply in_map_iff; eauto|apply spoiled, Hs]. }
  destruct H as [Hc Ha]. exists a, s'. split; [exact E|]. split; [exact Hc|]. split.
  - intros Ht. apply Ha. intros Hn. exact (Hn v eq_refl Ht).
  - intros Ht. apply Hu. intros v' [= <-]. exact Ht.
Qed.
Theorem setting_text : exists f s', run (httpSetting e num ph None None) s = (Ok (mkResp 400 [JErr]), s')
    /\ st_conns s' !! ss_conn x = Some (mkConn true (cn_out k ++ [f]))
    /\ encodePacket (e_o e) (platform_msg d 0x8103 ((ss_sn x + 1) mod 65536) (B8103 0 (Some (mkParams [] 0 [])))) = Ok f.
Proof.
  destruct (put_sent true (mkParams [] 0 []) [0]) as (f & s' & Ef & E & Hc & _); [reflexivity|].
  exists f, s'. split; [exact E|]. auto.
Qed.
End Req.

Lemma all_known o ps w qs : params_list_sent o ps w qs -> List.filter known_id ps = ps /\ length qs = length ps.
Proof.
  induction 1 as [|p w q ps ws qs (k & v & Hk & _) _ [IH1 IH2]]; [auto|]. cbn [List.filter length]. unfold known_id at 1. rewrite Hk, IH1, IH2. auto.
Qed.
Theorem setting_exact e num s ph d x k v ps w ps' : consistent s -> devAt s ph = Some d -> sessAt s (d_sid d) = Some x ->
  st_conns s !! ss_conn x = Some k -> cn_open k = true -> exact_numbers num ->
  d_ver d <> V2019 -> digits ph = true -> length ph = 12%nat ->
  asks v ps -> params_sent (e_o e) ps w ps' -> dp_phone ps' = ph -> (length w < 1022)%nat ->
  exists f s', run (httpSetting e num ph (Some v) None) s = (Ok (mkResp 200 []), s')
    /\ st_conns s' !! ss_conn x = Some (mkConn true (cn_out k ++ [f]))
    /\ (forall c, c <> ss_conn x -> st_conns s' !! c = st_conns s !! c)
    /\ tells (e_o e) f ph 0x8103 ((ss_sn x + 1) mod 65536) (B8103 (dp_cnt ps') (Some ps')).
Proof.
  intros C Hd Hx Hk Ho Hn Hv Hdg Hln Ha (Hl & Hc & Hc' & b & Hs & ->) Hp Hw.
  destruct (all_known _ _ _ _ Hs) as [Hf Hq].
  destruct (setting_received e num s ph d x k C Hd Hx Hk Ho v ps b (dp_list ps') Hn Hv Hdg Hln Ha) as (f & s' & E & H1 & H2 & H3).
  - rewrite Hf. exact Hs.
  - rewrite Hc, Nat2N.id, Hq. reflexivity.
  - rewrite app_length in Hw. cbn in Hw. lia.
  - exists f, s'. split; [exact E|]. split; [exact H1|]. split; [exact H2|].
    rewrite (firstn_all2 (dp_list ps')) in H3 by (rewrite Hc, Nat2N.id, Hq; reflexivity).
    rewrite Hc'. replace (Some ps') with (Some (mkParams ph (dp_cnt ps) (dp_list ps'))); [exact H3|]. destruct ps'. cbn in *. congruence.
Qed.

(** * More parameters announced than sent *)
Lemma nothing_left o sl i : (length (sl_data sl) <= i)%nat -> paramDecode o sl i = Panic.
Proof.
  intros Hi. unfold paramDecode. unfold rd_bind at 1. unfold ReadDoubleWord. unfold rd_bind at 1. unfold readSub.
  unfold sl_sub. destruct (_ && _); [|reflexivity]. cbn [rd_ret]. unfold rd_bind at 1. unfold ReadByte, sl_at.
  rewrite (proj2 (nth_error_None _ _)); [reflexivity|]. lia.
Qed.
Lemma announced_more o ps w qs : params_list_sent o ps w qs -> forall m pre sp, (length ps < m)%nat ->
  paramsDecodeLoop o m (mkSlice (pre ++ w) sp) (length pre) = Panic.
Proof.
  induction 1 as [|p wp q ps w qs Hp Hps IH]; intros m pre sp Hm; (destruct m as [|m]; [cbn in Hm; lia|]); cbn [paramsDecodeLoop]; unfold rd_bind at 1.
  - rewrite nothing_left; [reflexivity|]. cbn [sl_data]. rewrite app_nil_r. lia.
  - destruct (param_roundtrip o p wp q Hp) as (_ & Hpd). rewrite (Hpd (length pre) pre w sp eq_refl). unfold rd_bind at 1.
    pose proof (IH m (pre ++ wp) sp ltac:(cbn in Hm; lia)) as R. rewrite <- app_assoc, app_length in R. rewrite R. reflexivity.
Qed.
Lemma setting_undecodable o h ps w qs : hdr_wf h -> params_list_sent o (List.filter known_id (dp_list ps)) w qs ->
  (length qs < N.to_nat (dp_cnt ps))%nat -> (length w < 1022)%nat ->
  exists frm p n, encodePacket o (mkMsg h (B8103 0 (Some ps))) = Ok frm /\ decodePacket o frm = Ok p
    /\ pk_hdr p = with_len h n /\ forall now, msgDecode o now K8103 p = Panic.
Proof.
  intros Hh Hs Hl Hw. destruct (paramsLoop_roundtrip o _ _ _ Hs) as (Hlen & He & _).
  assert (Eb : encBody o h (B8103 0 (Some ps)) = Ok (dp_cnt ps :: w)).
  { cbn [encBody]. unfold paramsEncode. rewrite known_only, He. reflexivity. }
  destruct (packet_delivered o h _ _ Hh Eb) as (frm & p & E1 & E2 & Eh & Ed); [cbn [length]; lia|].
  exists frm, p, (N.of_nat (length (dp_cnt ps :: w))). split; [exact E1|]. split; [exact E2|]. split; [exact Eh|]. intros now.
  unfold msgDecode. destruct p as [hd [dat spr] code vf]. cbn [pk_hdr pk_body sl_data] in *. subst hd dat.
  cbn [kind_of decBody]. unfold rd_bind at 1.
  pose proof (reads_byte O (dp_cnt ps) [] w spr eq_refl) as R. cbn [app] in R. rewrite R.
  unfold rd_bind at 1. pose proof (rd_rest_spec [dp_cnt ps] w spr) as R2. cbn [app length Nat.add] in R2 |- *. rewrite R2.
  unfold rd_bind, rd_lift. unfold paramsDecode.
  pose proof (announced_more o _ _ _ Hs (N.to_nat (dp_cnt ps)) [] spr ltac:(lia)) as R3. cbn [app length] in R3. rewrite R3. reflexivity.
Qed.
Theorem setting_kills e ec num s ph d x k c slc xc v ps w qs : consistent s -> devAt s ph = Some d -> sessAt s (d_sid d) = Some x ->
  st_conns s !! ss_conn x = Some k -> cn_open k = true -> exact_numbers num ->
  d_ver d <> V2019 -> digits ph = true -> length ph = 12%nat -> e_o ec = e_o e -> st_sess c !! slc = Some xc ->
  asks v ps -> params_list_sent (e_o e) (List.filter known_id (dp_list ps)) w qs ->
  (length qs < N.to_nat (dp_cnt ps))%nat -> (length w < 1022)%nat ->
  exists f s', run (httpSetting e num ph (Some v) None) s = (Ok (mkResp 200 []), s')
    /\ st_conns s' !! ss_conn x = Some (mkConn true (cn_out k ++ [f]))
    /\ run (clientLoop ec slc [(Ok f, None)]) c = (Panic, c).
Proof.
  intros C Hd Hx Hk Ho Hn Hv Hdg Hln Heo Hxc Ha Hs Hc Hw. unfold httpSetting. rewrite (bound num v ps Hn Ha).
  destruct (paramsLoop_roundtrip _ _ _ _ Hs) as (_ & He & _).
  destruct (put_sent e s ph d x k C Hd Hx Hk Ho false ps (dp_cnt ps :: w)) as (f & s' & Ef & E & Hc1 & _).
  { unfold paramsEncode. rewrite known_only, He. reflexivity. }
  exists f, s'. split; [exact E|]. split; [exact Hc1|].
  destruct (setting_undecodable (e_o e) (lhdr ph 0x8103 ((ss_sn x + 1) mod 65536)) ps w qs
    (lhdr_wf ph 0x8103 _ Hdg Hln eq_refl ltac:(apply N.mod_lt; lia)) Hs Hc Hw) as (f' & p & n & Ef' & Dc & Hh & M).
  rewrite <- (order_put (e_o e) d ph ((ss_sn x + 1) mod 65536) false ps (dev_phone num s ph d C Hd) Hv) in Ef'. cbn [order_for] in Ef'.
  assert (f' = f) by congruence. subst f'.
  cbn [clientLoop]. rewrite run_bind. unfold readSess. cbn [run]. rewrite Hxc. cbn [run ret].
  rewrite run_bindR. unfold processConnRead. rewrite run_bind. cbn [lift run]. rewrite run_bind. unfold decodeP. rewrite run_bind. cbn [lift run].
  rewrite Heo, Dc. replace (isFragmented (pk_hdr p)) with false by (rewrite Hh; reflexivity).
  cbn [run ret]. unfold process. replace (h_id (pk_hdr p)) with 0x8103 by (rewrite Hh; reflexivity).
  change (lookupN optionTable 0x8103) with (Some (K8103, Some K0001)). cbv iota beta.
  replace (isFragmented (pk_hdr p)) with false by (rewrite Hh; reflexivity). cbn [andb].
  rewrite run_bind. rewrite run_bind. unfold getNow. cbn [run rd1 ret]. rewrite run_bind. cbn [lift run]. rewrite Heo, M. reflexivity.
Qed.
