(** Which bytes are read as the two numbers of a signature (C93). *)
From Coq Require Import ZArith NArith List String Ascii Lia.
From stdpp Require Import base tactics gmap list strings pretty.
From Verif Require Import GoBase Bytes WireModel ProtoModel HexModel CryptoModel CryptoProofs CryptoProps PorModel PorProps KeyModel KeyProps Base64Model Base64Props.
Open Scope string_scope.
Open Scope list_scope.
Open Scope Z_scope.

(** A number in bytes without a needless zero in front and not negative. *)
Definition tidy (l : bytes) : Prop :=
  match l with
  | [] => False
  | x :: l' => b2z x < 128 /\ (b2z x = 0 -> match l' with y :: _ => 128 <= b2z y | [] => True end)
  end.

(** Two numbers that can be a signature. *)
Definition in_range (r s : Z) : Prop := 0 < r < secp256k1_order /\ 0 < s < secp256k1_order.

Lemma canonical_tidy l : l <> [] -> canonical l = true <-> tidy l.
Proof.
  intros Hl. destruct l as [|x l]; [done|]. cbn [canonical tidy].
  rewrite andb_true_iff, !negb_true_iff, andb_false_iff, Z.leb_gt, Z.eqb_neq.
  destruct l as [|y l]; [|rewrite Z.ltb_ge]; intuition lia.
Qed.

(** The bytes [t; sl; m; rl] and then [body] are read as [(r, s)]. *)
Lemma parse_sig_iff der t sl m rl body r s :
  parse_sig der (t :: sl :: m :: rl :: body) = Some (r, s) <->
  exists rb sb c rest,
    b2z t = 48 /\ b2z m = 2 /\ body = rb ++ z2b 2 :: c :: sb ++ rest /\
    Z.of_nat (length rb) = b2z rl /\ Z.of_nat (length sb) = b2z c /\ rb <> [] /\ sb <> [] /\
    6 + Z.of_nat (length rb) + Z.of_nat (length sb) = (b2z sl + 2) mod 256 /\
    be_val 0 rb = r /\ be_val 0 sb = s /\ in_range r s /\ (der = true -> tidy rb /\ tidy sb).
Proof.
  unfold parse_sig. cbv zeta. set (q := (b2z sl + 2) mod 256).
  assert (0 <= q < 256) as Hq by (apply Z.mod_pos_bound; lia).
  split.
  - intros H. destruct (_ <? 8)%nat; [done|].
    destruct (Z.eqb_spec (b2z t) 48) as [Ht|]; [|done]. cbn [negb] in H.
    destruct (_ || _) eqn:E1; [done|]. apply orb_false_iff in E1 as [E1 E2].
    apply Z.ltb_ge in E1, E2. cbn [length] in E1.
    assert (exists k, Z.to_nat q = S (S (S (S k)))) as [k Hk] by (exists (Z.to_nat q - 4)%nat; lia).
    rewrite Hk in H. cbn [take drop firstn skipn] in H.
    assert (length (take k body) = k) as Lb by (apply take_length_le; lia).
    destruct (Z.eqb_spec (b2z m) 2) as [Hm|]; [|done]. cbn [negb] in H.
    destruct (_ || _) eqn:E3; [done|]. apply orb_false_iff in E3 as [E3 E4].
    apply Nat.eqb_neq in E3. apply Nat.ltb_ge in E4.
    set (n := Z.to_nat (b2z rl)) in *.
    destruct (der && negb (canonical (take n (take k body)))) eqn:E5; [done|].
    assert (length (take n (take k body)) = n) as Ln by (apply take_length_le; lia).
    pose proof (take_drop n (take k body)) as S1. pose proof (drop_length (take k body) n) as S2.
    destruct (drop n (take k body)) as [|m2 [|sl2 rest2]]; [done..|]. cbn [length] in S2.
    destruct (Z.eqb_spec (b2z m2) 2) as [Hm2|]; [|done]. cbn [negb] in H.
    destruct (_ || _) eqn:E6; [done|]. apply orb_false_iff in E6 as [E6 E7].
    apply Nat.eqb_neq in E6. apply Nat.ltb_ge in E7.
    set (v := Z.to_nat (b2z sl2)) in *.
    destruct (der && negb (canonical (take v rest2))) eqn:E8; [done|].
    destruct (Nat.eqb_spec (length rest2) v) as [E9|]; [|done]. cbn [negb] in H.
    rewrite (firstn_all2 rest2) in * by lia.
    match type of H with (if ?c then _ else _) = _ => destruct c eqn:E10; [|done] end. injection H as H1 H2.
    rewrite !andb_true_iff, !Z.ltb_lt in E10. destruct E10 as [[[R1 R2] R3] R4].
    pose proof (b2z_range rl). pose proof (b2z_range sl2).
    exists (take n (take k body)), rest2, sl2, (drop k body).
    assert (take n (take k body) <> []) as N1 by (intros E; rewrite E in Ln; cbn in Ln; lia).
    assert (rest2 <> []) as N2 by (intros E; rewrite E in E9; cbn in E9; lia).
    split; [done|]. split; [done|]. split.
    { rewrite <- (take_drop k body) at 1. rewrite <- S1 at 1. rewrite <- app_assoc. cbn.
      replace (z2b 2) with m2; [done|]. apply b2z_inj. rewrite Hm2. reflexivity. }
    split; [lia|]. split; [lia|]. split; [done|]. split; [done|]. split; [lia|].
    split; [done|]. split; [done|]. split; [subst r s; unfold in_range; rewrite order_n; split; lia|].
    intros ->. cbn [andb] in E5, E8. apply negb_false_iff in E5, E8.
    split; by apply canonical_tidy.
  - intros (rb & sb & c & rest & Ht & Hm & -> & L1 & L2 & N1 & N2 & L3 & <- & <- & HR & HD).
    unfold in_range in HR. rewrite order_n in HR. destruct HR as [R1 R2].
    assert (1 <= length rb)%nat by (destruct rb; [done|cbn; lia]).
    assert (1 <= length sb)%nat by (destruct sb; [done|cbn; lia]).
    assert (Z.to_nat q = S (S (S (S (length rb + S (S (length sb))))))) as Hk by lia.
    assert (length (rb ++ z2b 2 :: c :: sb ++ rest) = length rb + S (S (length sb + length rest)))%nat as Lb.
    { rewrite app_length. cbn [length]. by rewrite app_length. }
    destruct (Nat.ltb_spec (length (t :: sl :: m :: rl :: rb ++ z2b 2 :: c :: sb ++ rest)) 8) as [B|_]; [cbn [length] in B; lia|].
    rewrite Ht. cbn [negb Z.eqb Pos.eqb].
    destruct (Z.ltb_spec (Z.of_nat (length (t :: sl :: m :: rl :: rb ++ z2b 2 :: c :: sb ++ rest))) q) as [B|_]; [cbn [length] in B; lia|].
    destruct (Z.ltb_spec q 8) as [B|_]; [lia|]. cbn [orb].
    rewrite Hk. cbn [take drop firstn skipn].
    assert (take (length rb + S (S (length sb))) (rb ++ z2b 2 :: c :: sb ++ rest) = rb ++ z2b 2 :: c :: sb) as ->.
    { rewrite firstn_app_2. cbn [take firstn]. by rewrite take_app. }
    rewrite Hm. cbn [negb Z.eqb Pos.eqb].
    replace (Z.to_nat (b2z rl)) with (length rb) by lia.
    destruct (Nat.eqb_spec (length rb) 0) as [B|_]; [lia|].
    destruct (Nat.ltb_spec (length (rb ++ z2b 2 :: c :: sb)) (length rb + 3)) as [B|_].
    { rewrite app_length in B. cbn [length] in B. lia. }
    cbn [orb]. rewrite take_app, drop_app.
    assert (forall l, l <> [] -> (der = true -> tidy l) -> der && negb (canonical l) = false) as C.
    { intros l Hl Hd. destruct der; [|done]. cbn. rewrite (proj2 (canonical_tidy l Hl)); [done|by apply Hd]. }
    rewrite (C rb) by (done || intros D; by apply HD in D as [? _]).
    change (b2z (z2b 2)) with 2. cbn [negb Z.eqb Pos.eqb].
    replace (Z.to_nat (b2z c)) with (length sb) by lia.
    destruct (Nat.eqb_spec (length sb) 0) as [B|_]; [lia|].
    destruct (Nat.ltb_spec (length sb) (length sb)) as [B|_]; [lia|]. cbn [orb].
    rewrite firstn_all. rewrite (C sb) by (done || intros D; by apply HD in D as [_ ?]).
    rewrite Nat.eqb_refl. cbn [negb].
    destruct (_ && _) eqn:E10; [done|]. exfalso. revert E10.
    rewrite !andb_false_iff, !Z.ltb_ge. lia.
Qed.

(** The signature [b] is read as [(r, s)]: it is shorter than 250 bytes and its halves (the
    second one byte longer if need be) are the two numbers, or it has 512 bytes or more and
    begins with the numbers themselves, in the form and of the lengths that come out of its own
    length reduced to eight bits; what follows is not looked at. *)
Inductive signature (der : bool) (b : bytes) (r s : Z) : Prop :=
  | sig_halves rb sb :
      b = rb ++ sb -> length sb = length rb \/ length sb = S (length rb) ->
      (length b < 250)%nat -> be_val 0 rb = r -> be_val 0 sb = s -> in_range r s ->
      (der = true -> tidy rb /\ tidy sb) -> signature der b r s
  | sig_long rb sb rest :
      b = rb ++ [z2b 2; z2b (Z.of_nat (length sb))] ++ sb ++ rest -> (512 <= length b)%nat ->
      length rb = ((length b / 2) mod 256)%nat ->
      (length rb + length sb + 6 = (length b + 6) mod 256)%nat ->
      be_val 0 rb = r -> be_val 0 sb = s -> in_range r s ->
      (der = true -> tidy rb /\ tidy sb) -> signature der b r s.

Lemma be_val_pos l : 0 < be_val 0 l -> l <> [].
Proof. intros H ->. cbn in H. lia. Qed.

Theorem C93_read der b r s : parse_sig der (str_to_der b) = Some (r, s) <-> signature der b r s.
Proof.
  unfold str_to_der. cbv zeta. cbn [app].
  set (n := (length b / 2)%nat).
  assert (length b = 2 * n \/ length b = 2 * n + 1)%nat as Hn.
  { pose proof (Nat.div_mod (length b) 2 ltac:(lia)). pose proof (Nat.mod_upper_bound (length b) 2 ltac:(lia)). lia. }
  assert (length (take n b) = n) as L1 by (apply take_length_le; lia).
  assert (length (drop n b) = length b - n)%nat as L2 by apply drop_length.
  rewrite parse_sig_iff. rewrite L1, L2. rewrite !b2z_z2b.
  assert (((6 + Z.of_nat n + Z.of_nat (length b - n) - 2) mod 256 + 2) mod 256 = (Z.of_nat (length b) + 6) mod 256) as Eq.
  { rewrite Zplus_mod_idemp_l. f_equal. lia. }
  rewrite Eq. clear Eq.
  split.
  - intros (rb & sb & c & rest & _ & _ & E & Lr & Ls & N1 & N2 & L3 & Hr & Hs & HR & HD).
    assert (1 <= length rb)%nat by (destruct rb; [done|cbn; lia]).
    assert (1 <= length sb)%nat by (destruct sb; [done|cbn; lia]).
    pose proof (b2z_range c).
    destruct (decide (length b < 250)%nat) as [Hlt|Hge].
    + rewrite Z.mod_small in L3 by lia. rewrite Z.mod_small in Lr by lia.
      apply app_inj_1 in E as [<- E]; [|lia]. injection E as Ec E.
      assert (sb = drop n b) as ->.
      { pose proof (f_equal length E) as EL. rewrite app_length, L2 in EL. assert (rest = []) as ->; [|by rewrite app_nil_r in E].
        apply length_zero_iff_nil. lia. }
      apply (sig_halves _ _ _ _ (take n b) (drop n b)); try done; [by rewrite take_drop|lia].
    + assert (512 <= length b)%nat as Hb.
      { destruct (decide (length b < 512)%nat) as [Hlt|]; [|lia]. exfalso.
        rewrite (Z.mod_small (Z.of_nat n)) in Lr by lia.
        destruct (decide (length b < 506)%nat).
        - rewrite <- (Z.mod_unique (Z.of_nat (length b) + 6) 256 1 (Z.of_nat (length b) - 250)) in L3 by lia. lia.
        - rewrite <- (Z.mod_unique (Z.of_nat (length b) + 6) 256 2 (Z.of_nat (length b) - 506)) in L3 by lia. lia. }
      pose proof (Z.mod_pos_bound (Z.of_nat (length b) + 6) 256 ltac:(lia)).
      assert (exists rest', b = rb ++ [z2b 2; c] ++ sb ++ rest') as [rest' Eb].
      { assert (take n b = rb ++ z2b 2 :: c :: sb ++ take (n - (length rb + S (S (length sb)))) rest) as Et.
        { apply (f_equal (take n)) in E. rewrite take_app_alt in E by lia. rewrite E at 1.
          rewrite take_app_ge by lia. f_equal.
          replace (n - length rb)%nat with (S (S (n - length rb - 2))) by lia. cbn [take firstn]. do 2 f_equal.
          rewrite take_app_ge by lia. do 2 f_equal. lia. }
        eexists. transitivity (take n b ++ drop n b); [symmetry; apply take_drop|].
        rewrite Et, <- app_assoc. cbn. by rewrite <- app_assoc. }
      apply (sig_long _ _ _ _ rb sb rest'); try done.
      * replace (z2b (Z.of_nat (length sb))) with c; [done|]. apply b2z_inj. rewrite b2z_z2b, Z.mod_small by lia. done.
      * apply Nat2Z.inj. rewrite Lr. fold n. by rewrite Nat2Z.inj_mod.
      * apply Nat2Z.inj. rewrite Nat2Z.inj_mod, !Nat2Z.inj_add. lia.
  - intros [rb sb Eb Hl Hlt Hr Hs HR HD|rb sb rest Eb Hge Lr Ls Hr Hs HR HD].
    + assert (rb <> [] /\ sb <> []) as [N1 N2] by (split; apply be_val_pos; unfold in_range in HR; lia).
      assert (length b = length rb + length sb)%nat as Lb by (by rewrite Eb, app_length).
      assert (length rb = n) as Hn' by lia.
      assert (take n b = rb) as -> by (rewrite Eb; by apply take_app_alt).
      assert (drop n b = sb) as Es by (rewrite Eb; by apply drop_app_alt).
      rewrite Es in *. exists rb, sb, (z2b (Z.of_nat (length b - n))), [].
      rewrite b2z_z2b. rewrite !Z.mod_small by lia. rewrite app_nil_r.
      repeat split; try done; try lia; unfold in_range in HR; try lia; by apply HD.
    + assert (rb <> [] /\ sb <> []) as [N1 N2] by (split; apply be_val_pos; unfold in_range in HR; lia).
      pose proof (Nat.mod_upper_bound (length b + 6) 256 ltac:(lia)) as U.
      exists rb, sb, (z2b (Z.of_nat (length sb))), (take (n - (length rb + S (S (length sb)))) rest ++ z2b 2 :: z2b (Z.of_nat (length b - n)) :: drop n b).
      rewrite !b2z_z2b. split; [done|]. split; [done|]. split.
      { assert (take n b = rb ++ z2b 2 :: z2b (Z.of_nat (length sb)) :: sb ++ take (n - (length rb + S (S (length sb)))) rest) as ->.
        { rewrite Eb at 1. rewrite take_app_ge by lia. f_equal.
          replace (n - length rb)%nat with (S (S (n - length rb - 2))) by lia. cbn [app take firstn]. do 2 f_equal.
          rewrite take_app_ge by lia. do 2 f_equal. lia. }
        rewrite <- app_assoc. cbn. by rewrite <- app_assoc. }
      split; [rewrite Lr; fold n; by rewrite Nat2Z.inj_mod|].
      split; [rewrite Z.mod_small by lia; done|]. split; [done|]. split; [done|].
      split; [|done].
      apply (f_equal Z.of_nat) in Ls. rewrite Nat2Z.inj_mod, !Nat2Z.inj_add in Ls. lia.
Qed.
Print Assumptions C93_read.

(** * Records *)

(** When the record of a fetchai or cosmos agent is accepted, in terms of its texts alone: the
    signature text spells bytes that are read as a pair under which the key of the record
    verifies the key of the peer. *)
Theorem C93_record P r agent_addr peer_key :
  go_base64 P -> r_ledger r = "fetchai" \/ r_ledger r = "cosmos" ->
  is_valid_por P r agent_addr peer_key = Ok (0, false) <->
  r_address r = agent_addr /\ r_peer_key r = peer_key /\
  exists key b unused x y,
    hex_text (bytes_of (r_public_key r)) key /\ p_key_ok P key = true /\
    bytes_of agent_addr =
      bech32_encode (bytes_of (if String.eqb (r_ledger r) "fetchai" then "fetch" else "cosmos"))
        (groups5 (concat (map byte_bits (p_ripemd160 P (p_sha256 P key))))) /\
    spells (without_newlines (r_signature r)) b unused /\ signature false b x y /\
    p_verify P key x y (p_sha256 P (bytes_of peer_key)) = true.
Proof.
  intros HP Hl. rewrite C29_accepted. unfold represents, cosmos_proof. split.
  - intros (<- & <- & H). split; [done|]. split; [done|].
    assert (exists prefix, prefix = (if String.eqb (r_ledger r) "fetchai" then "fetch" else "cosmos") /\ cosmos_proof P prefix r) as (prefix & <- & K).
    { destruct H as [[E K]|[[E K]|[E _]]]; [by exists "fetch"; rewrite E|by exists "cosmos"; rewrite E|].
      rewrite E in Hl. by destruct Hl. }
    destruct K as (key & b & x & y & H1 & H2 & H3 & H4 & H5 & H6).
    rewrite HP in H4. apply C92_read in H4 as [u H4]. apply C93_read in H5.
    by exists key, b, u, x, y.
  - intros (<- & <- & key & b & u & x & y & H1 & H2 & H3 & H4 & H5 & H6). split; [done|]. split; [done|].
    apply C93_read in H5. assert (p_base64 P (r_signature r) = Some b) as H7 by (rewrite HP; apply C92_read; by exists u).
    destruct Hl as [E|E]; rewrite E in H3; [left|right; left]; (split; [done|]); by exists key, b, x, y.
Qed.
Print Assumptions C93_record.

(** Two signatures read as the same pair are as good as each other. *)
Theorem C93_same_pair P service ledger address key peer_key sig sig' b b' x y nb na addr k :
  go_base64 P -> ledger = "fetchai" \/ ledger = "cosmos" ->
  base64_decode sig = Some b -> base64_decode sig' = Some b' ->
  signature false b x y -> signature false b' x y ->
  is_valid_por P (Record_ service ledger address key peer_key sig nb na) addr k =
  is_valid_por P (Record_ service ledger address key peer_key sig' nb na) addr k.
Proof.
  intros HP Hl E E' S1 S2. apply C93_read in S1, S2.
  unfold is_valid_por. cbn [r_address r_ledger r_peer_key r_public_key r_signature].
  assert (forall m key, verify_fetchai P m sig key = verify_fetchai P m sig' key) as V.
  { intros. unfold verify_fetchai, parse_fetchai_signature. by rewrite !HP, E, E', S1, S2. }
  assert (verify_ledger P ledger (bytes_of peer_key) sig key = verify_ledger P ledger (bytes_of peer_key) sig' key) as ->; [|done].
  unfold verify_ledger. rewrite !V. by destruct Hl as [-> | ->].
Qed.
Print Assumptions C93_same_pair.

Lemma be_val_zeros k l : be_val 0 (replicate k (z2b 0) ++ l) = be_val 0 l.
Proof. induction k as [|k IH]; [done|]. cbn [replicate app be_val]. change (b2z (z2b 0)) with 0. exact IH. Qed.

Lemma be_val_32 z : 0 < z < curve_n -> be_val 0 (be_bytes 32 z) = z.
Proof.
  intros H. pose proof curve_n_256. rewrite be_val_bytes. change (256 ^ Z.of_nat 32) with (2 ^ 256).
  apply Z.mod_small. lia.
Qed.

(** Zero bytes in front of both numbers, up to 92, change nothing. *)
Theorem C93_zeros x y k : in_range x y -> (k <= 92)%nat ->
  signature false
    (replicate k (z2b 0) ++ be_bytes 32 x ++ replicate k (z2b 0) ++ be_bytes 32 y) x y.
Proof.
  intros [Hx Hy] Hk.
  apply (sig_halves _ _ _ _ (replicate k (z2b 0) ++ be_bytes 32 x) (replicate k (z2b 0) ++ be_bytes 32 y)); try done.
  - by rewrite <- app_assoc.
  - left. by rewrite !app_length, !be_bytes_length.
  - rewrite !app_length, !replicate_length, !be_bytes_length. lia.
  - rewrite be_val_zeros. by apply be_val_32.
  - rewrite be_val_zeros. by apply be_val_32.
Qed.
Print Assumptions C93_zeros.

(** Any 510 bytes at all can follow the two numbers, if the mark and length of the second stand
    between them. *)
Theorem C93_padded x y garbage : in_range x y -> length garbage = 510%nat ->
  signature false (be_bytes 32 x ++ [z2b 2; z2b 32] ++ be_bytes 32 y ++ garbage) x y.
Proof.
  intros [Hx Hy] Hg.
  assert (length (be_bytes 32 x ++ [z2b 2; z2b 32] ++ be_bytes 32 y ++ garbage) = 576%nat) as L.
  { rewrite !app_length, !be_bytes_length, Hg. done. }
  apply (sig_long _ _ _ _ (be_bytes 32 x) (be_bytes 32 y) garbage); try done; rewrite ?L, ?be_bytes_length; try done.
  - lia.
  - by apply be_val_32.
  - by apply be_val_32.
Qed.
Print Assumptions C93_padded.

(** Not so: an accepted record leaves no room for anything but the proof. Its signature can be
    replaced so that it carries any 510 bytes. *)
Theorem C93_room_refuted P service ledger address key peer_key sig nb na addr k garbage :
  go_base64 P -> ledger = "fetchai" \/ ledger = "cosmos" -> length garbage = 510%nat ->
  is_valid_por P (Record_ service ledger address key peer_key sig nb na) addr k = Ok (0, false) ->
  exists front,
    is_valid_por P (Record_ service ledger address key peer_key (base64_encode (front ++ garbage)) nb na) addr k
    = Ok (0, false).
Proof.
  intros HP Hl Hg H. pose proof H as H'. apply C93_record in H' as (_ & _ & kb & b & u & x & y & _ & _ & _ & HS & HG & _); [|done..].
  exists (be_bytes 32 x ++ [z2b 2; z2b 32] ++ be_bytes 32 y).
  rewrite <- H. symmetry. eapply C93_same_pair; [done|done|apply C92_read; by exists u|apply C92_read_back|done|].
  rewrite <- !app_assoc. apply C93_padded; [|done]. by destruct HG.
Qed.
Print Assumptions C93_room_refuted.

(** With a small stand-in: the halves, zeros in front, a long form, and lengths never read. *)
Example C93_example :
  let ten := map z2b [10; 11; 12; 13] in
  let one := map z2b [1; 2; 3; 4] in
  parse_sig false (str_to_der (ten ++ one)) = Some (168496141, 16909060) /\
  parse_sig false (str_to_der (z2b 0 :: ten ++ z2b 0 :: one)) = Some (168496141, 16909060) /\
  parse_sig true (str_to_der (z2b 0 :: ten ++ z2b 0 :: one)) = None /\
  parse_sig false (str_to_der (ten ++ [z2b 2; z2b 4] ++ one ++ replicate 510 (z2b 77))) = Some (168496141, 16909060) /\
  parse_sig true (str_to_der (ten ++ [z2b 2; z2b 4] ++ one ++ replicate 510 (z2b 77))) = Some (168496141, 16909060) /\
  map (fun n => parse_sig false (str_to_der (replicate n (z2b 0) ++ [z2b 1]))) [0; 249; 300; 575]%nat
  = [None; None; None; None].
Proof. vm_compute. done. Qed.

Example C93_record_example :
  let front := map z2b [10; 11; 12; 13] ++ [z2b 2; z2b 4] ++ bytes_of "peer" in
  go_base64 toy64 /\ in_range 168496141 1885693298 /\
  is_valid_por toy64 (Record_ "s" "fetchai" "fetch1pg9scrg8qurswpc8qurswpc8qurswpc80ay04q" "0A0b0c0D" "peer"
      (base64_encode (front ++ replicate 510 (z2b 33))) "" "")
    "fetch1pg9scrg8qurswpc8qurswpc8qurswpc80ay04q" "peer" = Ok (0, false).
Proof. split; [done|]. split; [split; split; reflexivity|]. vm_compute. done. Qed.
