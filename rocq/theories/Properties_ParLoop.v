(** C138: parameter requests over HTTP, from the request to the terminal and back *)
From Coq Require Import Sorted String.
From stdpp Require Import gmap.
From Verif Require Import Base HexM TimeM HeaderM ParamsM GeoM MsgM PacketM FrameM ProgM RingM
  StateM ProcM ServerM ClientM ConcM SpecState SpecCodec SpecAnswer SpecCmd SpecGen SpecParLoop ServerP ParLoopP ExampleData ExampleState Properties_Server Properties_Stop.
Local Open Scope N_scope.

(** C138: a series of settings and queries of a terminal that is not of version 2019.  Each is sent to the terminal as
    one frame with the next serial number; the terminal carries it out and writes one frame, an acknowledgement or
    the table it has then, which the server can read; the terminal ends with the table that the settings give it,
    and all else in both processes is unchanged. *)
Theorem C138_partial : forall e ec s c ph d x xc k kc slc, consistent s -> devAt s ph = Some d -> sessAt s (d_sid d) = Some x ->
  st_conns s !! ss_conn x = Some k -> cn_open k = true -> e_o ec = e_o e ->
  st_sess c !! slc = Some xc -> st_conns c !! ss_conn xc = Some kc -> cn_open kc = true ->
  forall reqs ans t', d_ver d <> V2019 -> digits ph = true -> length ph = 12%nat ->
  (forall q, st_params c !! ph = Some q -> dp_phone q = ph) ->
  talk (e_o e) ph (st_params c !! ph) reqs ans t' ->
  exists sl fl gl, st_byID s !! d_sid d = Some sl
    /\ exchanges e ec ph (mkEnds sl (ss_conn x) slc (ss_conn xc)) reqs s c
       = ((ordered s sl x ((ss_sn x + N.of_nat (length reqs)) mod 65536) (cn_out k ++ fl), answered c ph (ss_conn xc) t' (cn_out kc ++ gl)),
          List.map (fun p => ([fst p], [snd p], true)) (combine fl gl))
    /\ Forall2 (fun o f => encodePacket (e_o e) (order_for d (fst o) (snd o)) = Ok f) (combine reqs (serials (ss_sn x) (length reqs))) fl
    /\ Forall2 (fun o g => reports_back (e_o e) ph (fst o) (snd o) g) (combine ans (serials (ss_sn x) (length reqs))) gl
    /\ length fl = length reqs /\ length gl = length reqs.
Proof. exact params_loop. Qed.
Print Assumptions C138_partial.
(** The tables the terminal sends are lost: whatever it has, the server ends in the same state. *)
Theorem C138_refuted : forall e ec s c c' ph d x xc xc' k kc kc' slc slc', consistent s -> devAt s ph = Some d -> sessAt s (d_sid d) = Some x ->
  st_conns s !! ss_conn x = Some k -> cn_open k = true -> e_o ec = e_o e ->
  st_sess c !! slc = Some xc -> st_conns c !! ss_conn xc = Some kc -> cn_open kc = true ->
  st_sess c' !! slc' = Some xc' -> st_conns c' !! ss_conn xc' = Some kc' -> cn_open kc' = true ->
  d_ver d <> V2019 -> digits ph = true -> length ph = 12%nat ->
  (forall q, st_params c !! ph = Some q -> dp_phone q = ph) -> (forall q, st_params c' !! ph = Some q -> dp_phone q = ph) ->
  forall reqs ans t ans' t', talk (e_o e) ph (st_params c !! ph) reqs ans t -> talk (e_o e) ph (st_params c' !! ph) reqs ans' t' ->
  exists sl, st_byID s !! d_sid d = Some sl
    /\ fst (fst (exchanges e ec ph (mkEnds sl (ss_conn x) slc (ss_conn xc)) reqs s c))
       = fst (fst (exchanges e ec ph (mkEnds sl (ss_conn x) slc' (ss_conn xc')) reqs s c')).
Proof.
  intros e ec s c c' ph d x xc xc' k kc kc' slc slc' C Hd Hx Hk Ho He Hxc Hkc Hoc Hxc' Hkc' Hoc' Hv Hdg Hln Hc Hc' reqs ans t ans' t' T T'.
  destruct (params_loop e ec s c ph d x xc k kc slc C Hd Hx Hk Ho He Hxc Hkc Hoc reqs ans t Hv Hdg Hln Hc T) as (sl & fl & gl & Hi & E & F & _).
  destruct (params_loop e ec s c' ph d x xc' k kc' slc' C Hd Hx Hk Ho He Hxc' Hkc' Hoc' reqs ans' t' Hv Hdg Hln Hc' T') as (sl' & fl' & gl' & Hi' & E' & F' & _).
  assert (sl' = sl) by congruence. subst sl'. exists sl. split; [exact Hi|]. rewrite E, E'. cbn [fst].
  assert (fl' = fl); [|congruence]. clear -F F'. revert fl' F'. induction F as [|o f os fs Hf F IH]; intros fl' F'; inversion F'; subst; [reflexivity|].
  f_equal; [congruence|auto].
Qed.
Print Assumptions C138_refuted.
(** For a terminal of version 2019 the query makes the terminal panic (and never read its connection again); *)
Theorem C138_refuted_query : forall e ec s c ph d x xc k kc slc, consistent s -> devAt s ph = Some d -> sessAt s (d_sid d) = Some x ->
  st_conns s !! ss_conn x = Some k -> cn_open k = true -> e_o ec = e_o e ->
  st_sess c !! slc = Some xc -> st_conns c !! ss_conn xc = Some kc ->
  d_ver d = V2019 -> digits ph = true -> length ph = 20%nat ->
  exists sl f, let sn := (ss_sn x + 1) mod 65536 in st_byID s !! d_sid d = Some sl
    /\ encodePacket (e_o e) (order_for d RGet sn) = Ok f
    /\ run (clientLoop ec slc [(Ok f, None)]) c = (Panic, c)
    /\ exchange e ec ph (mkEnds sl (ss_conn x) slc (ss_conn xc)) RGet s c = ((ordered s sl x sn (cn_out k ++ [f]), c), ([f], [], false)).
Proof. exact query_2019. Qed.
Print Assumptions C138_refuted_query.
(** and a setting is acknowledged, with another phone and serial number, while no parameter of any phone changes. *)
Theorem C138_refuted_set : forall e ec s c ph d x xc k kc slc, consistent s -> devAt s ph = Some d -> sessAt s (d_sid d) = Some x ->
  st_conns s !! ss_conn x = Some k -> cn_open k = true -> e_o ec = e_o e ->
  st_sess c !! slc = Some xc -> st_conns c !! ss_conn xc = Some kc -> cn_open kc = true ->
  forall bad ps n v, d_ver d = V2019 -> digits ph = true -> length ph = 20%nat ->
  (forall q t, st_params c !! q = Some t -> dp_phone t = q) ->
  paramsEncode (e_o e) ps = Ok (n :: 0 :: v) -> n < 256 -> (length v < 1022)%nat ->
  exists sl f g c1 h, let sn := (ss_sn x + 1) mod 65536 in st_byID s !! d_sid d = Some sl
    /\ run (code e (handling ph (RPut bad ps))) s = (Ok tt, ordered s sl x sn (cn_out k ++ [f]))
    /\ run (clientLoop ec slc [(Ok f, None)]) c = (Ok false, c1)
    /\ st_conns c1 = <[ss_conn xc := mkConn true (cn_out kc ++ [g])]> (st_conns c)
    /\ encodePacket (e_o e) (mkMsg h (B0001 (sn mod 256 * 256 + n) 0x8103 0)) = Ok g
    /\ h_id h = 0x0001 /\ h_phone h = shifted ph (sn / 256)
    /\ forall q id, kept_value c1 q id = kept_value c q id.
Proof. exact put_2019. Qed.
Print Assumptions C138_refuted_set.

(** the device of the first connection; a terminal that has nothing set, is asked, has a parameter set and is asked again *)
Definition ps_one : devparams := mkParams [] 1 [mkParam 0x0001 0 (VF64 60)].
Definition ps_got : devparams := mkParams phone12 1 [mkParam 0x0001 4 (VU32 60)].
Definition wire1 : bytes := [1] ++ [0; 0; 0; 1; 4; 0; 0; 0; 60].
Lemma one_sent : params_sent o0 ps_one wire1 ps_got.
Proof.
  split; [cbn; lia|]. split; [reflexivity|]. split; [reflexivity|]. eexists. split; [|reflexivity]. cbn [dp_list ps_one ps_got].
  eapply (pls_cons _ _ [0; 0; 0; 1; 4; 0; 0; 0; 60] _ _ []); [|constructor].
  exists PDword, [0; 0; 0; 60]. repeat split. apply (vf_f32 o0 60). lia.
Qed.
Lemma got_sent : params_sent o0 ps_got wire1 ps_got.
Proof.
  split; [cbn; lia|]. split; [reflexivity|]. split; [reflexivity|]. eexists. split; [|reflexivity]. cbn [dp_list ps_got].
  eapply (pls_cons _ _ [0; 0; 0; 1; 4; 0; 0; 0; 60] _ _ []); [|constructor].
  exists PDword, [0; 0; 0; 60]. repeat split. apply (vf_u32 o0 60). lia.
Qed.
(** the table built in fits a message when GBK text is plain ASCII *)
Definition wire_default : bytes :=
  match paramsEncode o0 (default_table o0 phone12) with Ok w => w | _ => [] end.
Lemma default_sent : params_sent o0 (default_table o0 phone12) wire_default (default_table o0 phone12).
Proof.
  split; [vm_compute; lia|]. split; [reflexivity|]. split; [reflexivity|].
  eexists. split.
  - unfold default_table, built_in. cbn [dp_list app].
    repeat (eapply pls_cons;
      [first [ eexists PDword, _; split; [reflexivity|]; split; [reflexivity|]; split; [apply vf_u32; reflexivity|]; repeat split
             | eexists PWord, _; split; [reflexivity|]; split; [reflexivity|]; split; [apply vf_u16; reflexivity|]; repeat split
             | eexists PGBK, _; split; [reflexivity|]; split; [reflexivity|]; split; [apply vf_gbk; [split; vm_compute; reflexivity|vm_compute; lia]|]; repeat split
             | eexists PBytes, _; split; [reflexivity|]; split; [reflexivity|]; split; [apply vf_bcd; [reflexivity|vm_compute; lia|reflexivity]|]; repeat split ]|]).
    constructor.
  - vm_compute. reflexivity.
Qed.
Lemma got_merged : merged (default_table o0 phone12) ps_got (paramsUpdate (default_table o0 phone12) ps_got).
Proof. apply update_merged. Qed.
(** a server with a device of version 2019 *)
Definition f_reg19 : bytes := frame (mkMsg (hdr_set_id h19 0x0100) (B0100 reg1)).
Definition s_19 : st := w_st (history e0 1000 [EAccept 0 addr1; EFrame 0 (Ok f_reg19) None]).
Definition d_19 : device := mkDevice [68; 49] [65; 49] phone20 addr1 0 60000 1000 Offline V2019 1 [] [] [].
Example C138_ex : consistent s2 /\ devAt s2 phone12 = Some d1 /\ sessAt s2 (d_sid d1) = Some x1
  /\ (exists k, st_conns s2 !! ss_conn x1 = Some k /\ cn_open k = true) /\ d_ver d1 <> V2019
  /\ digits phone12 = true /\ length phone12 = 12%nat
  /\ st_sess s_cli !! 0%nat = Some (mkSession addr1 0 0) /\ st_conns s_cli !! 0%nat = Some (mkConn true []) /\ st_params s_cli !! phone12 = None
  /\ talk o0 phone12 None [RGet] [Some (default_table o0 phone12)] (Some (default_table o0 phone12))
  /\ talk o0 phone12 None [RPut false ps_one; RGet] [None; Some ps_got] (Some ps_got)
  /\ (exists t, talk o0 phone12 (Some (default_table o0 phone12)) [RPut false ps_one] [None] (Some t) /\ value_of t 0x0001 = Some (mkParam 0x0001 4 (VU32 60))
        /\ value_of t 0x0002 = value_of (default_table o0 phone12) 0x0002 /\ length (dp_list t) = 39%nat)
  /\ consistent s_19 /\ devAt s_19 phone20 = Some d_19 /\ sessAt s_19 (d_sid d_19) = Some x1
  /\ (exists k, st_conns s_19 !! ss_conn x1 = Some k /\ cn_open k = true) /\ d_ver d_19 = V2019
  /\ digits phone20 = true /\ length phone20 = 20%nat
  /\ paramsEncode o0 ps_one = Ok (1 :: 0 :: [0; 0; 1; 4; 0; 0; 0; 60]).
Proof.
  split; [exact s2_ok|]. split; [exact s2_d1|]. split; [vmr|]. split; [eexists; split; [vmr|reflexivity]|]. split; [discriminate|].
  split; [reflexivity|]. split; [reflexivity|]. split; [vmr|]. split; [vmr|]. split; [vmr|].
  split. { apply (tk_get o0 phone12 None wire_default); [exact default_sent|reflexivity|vm_compute; lia|constructor]. }
  split. { apply (tk_put o0 phone12 None false ps_one wire1 ps_got ps_got); [exact one_sent|reflexivity|cbn; lia|reflexivity|].
           apply (tk_get o0 phone12 (Some ps_got) wire1); [exact got_sent|reflexivity|cbn; lia|constructor]. }
  split. { eexists. split; [eapply (tk_put o0 phone12 (Some (default_table o0 phone12)) false ps_one wire1 ps_got); [exact one_sent|reflexivity|cbn; lia|exact got_merged|constructor]|].
           split; [vmr|]. split; vmr. }
  split; [exact (wo_ok _ (history_ok e0 1000 _))|]. split; [vmr|]. split; [vmr|]. split; [eexists; split; [vmr|reflexivity]|].
  repeat split; vmr.
Qed.
