(** Device arguments *)
From Verif Require Import Base HexM ArgsM.
Local Open Scope N_scope.

Lemma put_ok {V} (gs : list (argdata V)) : forall w, argsPut gs w = Ok w.
Proof. induction gs as [|g gs IH]; intros w; cbn; [reflexivity|]. rewrite IH. unfold WriteBytes. rewrite app_nil_r. reflexivity. Qed.
Lemma encode_nothing {V} (a : devargs V) : argsEncode a = Ok [].
Proof. unfold argsEncode. rewrite put_ok. reflexivity. Qed.
Lemma loop_ok {V} n pkt : forall a : devargs V,
  argsLoop n pkt a = Ok (mkArgs (as_phone a) (as_cnt a) (as_args a ++ repeat (mkArg 0 0 None) n)).
Proof.
  induction n as [|n IH]; intros [ph c gs]; cbn; [rewrite app_nil_r; reflexivity|].
  rewrite IH. cbn. rewrite <- app_assoc. reflexivity.
Qed.
Lemma decode_zeros {V} (a : devargs V) phone cnt pkt :
  argsDecode a phone cnt pkt = Ok (mkArgs phone cnt (as_args a ++ repeat (mkArg 0 0 None) (N.to_nat cnt))).
Proof. unfold argsDecode. rewrite loop_ok. reflexivity. Qed.
Lemma decode_count {V} phone cnt pkt (a : devargs V) : as_args a = [] ->
  exists b, argsDecode a phone cnt pkt = Ok b /\ as_phone b = phone /\ as_cnt b = cnt /\ N.of_nat (length (as_args b)) = cnt.
Proof.
  intros H. eexists. split; [apply decode_zeros|]. cbn. rewrite H. cbn. rewrite repeat_length, N2Nat.id. auto.
Qed.
Lemma never_encoded {V} (a : devargs V) w : argsEncode a <> Ok (as_cnt a :: w).
Proof. rewrite encode_nothing. discriminate. Qed.
