(** Properties of key texts (C73) and of signing and checking (C74). *)
From Coq Require Import ZArith NArith List String Ascii Lia.
From stdpp Require Import base tactics gmap list strings.
From Verif Require Import GoBase Bytes WireModel ProtoModel HexModel CryptoModel CryptoProofs CryptoProps
  PorModel PorProps ConfigModel AgentModel KeyModel.
Open Scope string_scope.
Open Scope list_scope.
Open Scope Z_scope.

(** A hexadecimal digit, in upper or lower case. *)
Definition is_hex (c : byte) : Prop := In (lower c) (bytes_of "0123456789abcdef").

(** The text has no pair of digits at its start. *)
Definition no_pair (t : bytes) : Prop := forall x y l, t = x :: y :: l -> ~ (is_hex x /\ is_hex y).

Lemma is_hex_value c : is_hex c <-> is_Some (hex_value c).
Proof.
  assert (Bool.eqb (existsb (Ascii.eqb (lower c)) (bytes_of "0123456789abcdef"))
            (match hex_value c with Some _ => true | None => false end) = true) as H.
  { revert c. apply byte_forall. vm_compute. reflexivity. }
  apply eqb_prop in H. unfold is_hex. split.
  - intros Hi. destruct (hex_value c); [by eexists|]. exfalso.
    assert (existsb (Ascii.eqb (lower c)) (bytes_of "0123456789abcdef") = true) as E; [|congruence].
    apply existsb_exists. exists (lower c). split; [done|]. apply Ascii.eqb_refl.
  - intros [v Hv]. rewrite Hv in H. apply existsb_exists in H as (x & Hx & E).
    apply Ascii.eqb_eq in E. by subst.
Qed.

(** What the call that throws the error away keeps. *)
Lemma hex_prefix_iff s b :
  hex_prefix s = b <-> exists h t, s = h ++ t /\ hex_text h b /\ no_pair t.
Proof.
  unfold hex_text. revert b. induction s as [|a|h l s IH] using two_ind; intros b.
  - cbn. split.
    + intros <-. by exists [], [].
    + intros (h & t & E & Eh & _). symmetry in E. apply app_eq_nil in E as [-> ->]. by destruct b.
  - cbn. split.
    + intros <-. exists [], [a]. split; [done|]. split; [done|]. intros x y l [=].
    + intros (h & t & E & Eh & _). destruct b as [|x b]; [done|]. exfalso.
      apply (f_equal length) in Eh, E. rewrite map_length, hex_encode_length in Eh.
      rewrite app_length in E. cbn in *. lia.
  - cbn [hex_prefix]. split.
    + intros <-. destruct (hex_value h) as [x|] eqn:Eh, (hex_value l) as [y|] eqn:El.
      1:{ destruct (proj1 (IH _) eq_refl) as (p & t & -> & Ep & Ht). exists (h :: l :: p), t.
          split; [done|]. split; [|done]. apply hex_decode_iff. cbn [hex_decode].
          by rewrite Eh, El, (proj2 (hex_decode_iff _ _) Ep). }
      all: exists [], (h :: l :: s); split; [done|]; split; [done|];
        intros x' y' l' [= <- <- <-] [Hx Hy]; apply is_hex_value in Hx as [? ?], Hy as [? ?]; congruence.
    + intros (p & t & E & Ep & Ht). destruct p as [|p1 [|p2 p]].
      * cbn in E, Ep. subst t. specialize (Ht _ _ _ eq_refl).
        destruct (hex_value h) eqn:Eh, (hex_value l) eqn:El; try (by destruct b).
        exfalso. apply Ht. split; apply is_hex_value; by eexists.
      * exfalso. apply (f_equal length) in Ep. rewrite map_length, hex_encode_length in Ep. cbn in Ep. lia.
      * injection E as -> -> ->. destruct b as [|x b]; [done|].
        apply hex_decode_iff in Ep. cbn [hex_decode] in Ep.
        destruct (hex_value p1) eqn:Eh; [|done]. destruct (hex_value p2) eqn:El; [|done].
        destruct (hex_decode p) eqn:Ed; [|done]. injection Ep as <- ->. f_equal. apply IH.
        exists p, t. split; [done|]. split; [by apply hex_decode_iff|done].
Qed.

Section Key.
  Context (pt : Type) (P : prims).
  Context (parse : bytes -> option pt) (compress : pt -> bytes) (pub_of : bytes -> pt).
  Context (check : pt -> Z -> Z -> bytes -> bool) (sign : bytes -> bytes -> option bytes).
  Context (b64 : bytes -> string) (peer_id : pt -> string).

  Notation lenient_key := (lenient_key pt parse).
  Notation strict_key := (strict_key pt parse).
  Notation key_text := (key_text pt compress).
  Notation id_of_text := (id_of_text pt parse peer_id).
  Notation uncompressed_key := (uncompressed_key pt parse).
  Notation id_of_uncompressed := (id_of_uncompressed pt parse peer_id).
  Notation ethereum_key := (ethereum_key pt parse).
  Notation key_pair := (key_pair pt pub_of).
  Notation text_of_private := (text_of_private pt compress pub_of).
  Notation sign_fetchai := (sign_fetchai pt pub_of sign b64).
  Notation libp2p_verify := (libp2p_verify pt P check).
  Notation verify_libp2p := (verify_libp2p pt P parse check).

  (** The compressed form of the key is read as that key (true of every point of the
      curve but the neutral one). *)
  Definition readable (p : pt) : Prop := parse (compress p) = Some p.

  Lemma parsed_ok b p : parsed pt parse b = Ok p <-> parse b = Some p.
  Proof. unfold parsed. destruct (parse b); split; intros [=]; by subst. Qed.

  (** * C73 *)

  (** The strict reading takes exactly the hexadecimal texts, in any case, of bytes that
      are a form of the key. *)
  Theorem C73_strict text p :
    strict_key text = Ok p <-> exists b, hex_text (bytes_of text) b /\ parse b = Some p.
  Proof.
    unfold KeyModel.strict_key, hex_text. split.
    - destruct (hex_decode _) as [b|] eqn:E; [|done]. intros H. exists b.
      split; [by apply hex_decode_iff|by apply parsed_ok].
    - intros (b & E & Hp). apply hex_decode_iff in E. rewrite E. by apply parsed_ok.
  Qed.

  (** The lenient reading, which the agent uses for the key of its node, takes the same
      texts with anything behind them that does not start with two digits. *)
  Theorem C73_lenient text p :
    lenient_key text = Ok p <->
    exists h t b, bytes_of text = h ++ t /\ hex_text h b /\ no_pair t /\ parse b = Some p.
  Proof.
    unfold KeyModel.lenient_key. rewrite parsed_ok. split.
    - intros H. destruct (proj1 (hex_prefix_iff (bytes_of text) _) eq_refl) as (h & t & E & Eh & Ht).
      by exists h, t, (hex_prefix (bytes_of text)).
    - intros (h & t & b & E & Eh & Ht & Hp).
      by rewrite (proj2 (hex_prefix_iff (bytes_of text) b)) by (by exists h, t).
  Qed.

  Theorem C73_lenient_more text p : strict_key text = Ok p -> lenient_key text = Ok p.
  Proof.
    rewrite C73_strict, C73_lenient. intros (b & E & Hp).
    exists (bytes_of text), [], b. rewrite app_nil_r. do 3 (split; [done|]). done.
  Qed.

  (** The text a node gives of a key is read as that key, gives its peer id, and belongs
      to no other key. *)
  Theorem C73_round_trip p :
    readable p ->
    strict_key (key_text p) = Ok p /\ lenient_key (key_text p) = Ok p /\
    id_of_text (key_text p) = Ok (peer_id p) /\
    (forall q, readable q -> key_text q = key_text p -> q = p).
  Proof.
    intros Hp.
    assert (strict_key (key_text p) = Ok p) as Hs.
    { apply C73_strict. exists (compress p). split; [|done].
      unfold hex_text, KeyModel.key_text. rewrite string_bytes. apply hex_encode_lower. }
    split; [done|]. split; [by apply C73_lenient_more|].
    split; [unfold KeyModel.id_of_text; by rewrite Hs|].
    intros q Hq E. unfold readable in *.
    assert (compress q = compress p) as E'; [|congruence].
    apply hex_encode_inj. unfold KeyModel.key_text in E. apply (f_equal bytes_of) in E.
    by rewrite !string_bytes in E.
  Qed.

  (** The peer id depends on the key only: a text in another case, or of the
      uncompressed form, names the same peer. *)
  Theorem C73_id text id :
    id_of_text text = Ok id <->
    exists b p, hex_text (bytes_of text) b /\ parse b = Some p /\ id = peer_id p.
  Proof.
    unfold KeyModel.id_of_text. split.
    - destruct (strict_key text) as [p|e|e] eqn:E; cbn [rbind]; [|done..].
      intros [= <-]. apply C73_strict in E as (b & Hb & Hp). by exists b, p.
    - intros (b & p & Hb & Hp & ->).
      by rewrite (proj2 (C73_strict text p)) by (by exists b).
  Qed.

  Theorem C73_uncompressed text id :
    id_of_uncompressed text = Ok id <->
    exists b p, hex_text (bytes_of text) b /\ parse (z2b 4 :: b) = Some p /\ id = peer_id p.
  Proof.
    unfold KeyModel.id_of_uncompressed, KeyModel.uncompressed_key, hex_text. split.
    - destruct (hex_decode _) as [b|] eqn:E; cbn [rbind]; [|done].
      destruct (parsed pt parse _) as [p|e|e] eqn:Ep; cbn [rbind]; [|done..].
      intros [= <-]. apply parsed_ok in Ep. exists b, p. split; [by apply hex_decode_iff|done].
    - intros (b & p & E & Hp & ->). apply hex_decode_iff in E. rewrite E.
      by rewrite (proj2 (parsed_ok _ p)) by done.
  Qed.

  (** But a record is accepted by a node with one text of the node's key only. *)
  Theorem C73_record r addr p :
    is_valid_por P r addr (key_text p) = Ok (0, false) -> r_peer_key r = key_text p.
  Proof. intros H. apply C29_accepted in H. apply H. Qed.

  (** The agent connects with trailing garbage in the key of its node exactly as without. *)
  Theorem C73_agent p junk d :
    readable p -> no_pair (bytes_of junk) ->
    let peer_key := fun t => match lenient_key t with Ok p => Some (compress p) | _ => None end in
    let verify := fun k data sig =>
      match parse k with Some p => libp2p_verify p data sig | None => Err "" end in
    socket_connect peer_key verify (key_text p ++ junk) d = socket_connect peer_key verify (key_text p) d.
  Proof.
    intros Hp Hj. cbv zeta.
    assert (lenient_key (key_text p ++ junk) = lenient_key (key_text p)) as E; [|by unfold socket_connect; rewrite E].
    destruct (C73_round_trip p Hp) as (_ & -> & _). apply C73_lenient.
    exists (hex_encode (compress p)), (bytes_of junk), (compress p).
    split; [unfold KeyModel.key_text; by rewrite bytes_of_app, string_bytes|].
    split; [apply hex_encode_lower|]. split; done.
  Qed.

  (** Private keys: hexadecimal texts in any case and of any length, nothing else; the
      text of the public key is that of the pair's public key, and the agent's wallet
      derives the same. *)
  Theorem C73_pair key b p :
    key_pair key = Ok (b, p) <-> hex_text (bytes_of key) b /\ p = pub_of b.
  Proof.
    unfold KeyModel.key_pair, hex_text. rewrite <- hex_decode_iff. split.
    - destruct (hex_decode _); intros [=]; by subst.
    - intros [-> ->]. done.
  Qed.

  Theorem C73_public key t :
    text_of_private key = Ok t <-> exists b p, key_pair key = Ok (b, p) /\ t = key_text p.
  Proof.
    unfold KeyModel.text_of_private, KeyModel.key_pair, KeyModel.key_text. split.
    - destruct (hex_decode _) as [b|]; [|done]. intros [= <-]. by eexists _, _.
    - destruct (hex_decode _) as [b|]; [|naive_solver]. intros (b' & p & [= <- <-] & ->). done.
  Qed.

  Theorem C73_wallet key :
    public_key_of (fun b => compress (pub_of b)) "fetchai" key = text_of_private key.
  Proof. done. Qed.

  Theorem C73_prefixed key : exists e, key_pair ("0x" ++ key) = Err e.
  Proof.
    exists "encoding/hex". unfold KeyModel.key_pair. rewrite bytes_of_app.
    change (bytes_of "0x") with [z2b 48; z2b 120]. cbn [app hex_decode].
    change (hex_value (z2b 120)) with (@None Z). by destruct (hex_value (z2b 48)).
  Qed.

  (** The reading for ethereum: two characters, whatever they are, then the 64 bytes of
      the uncompressed form without its first byte; a shorter text crashes. *)
  Theorem C73_ethereum text p :
    (ethereum_key text = Ok p <->
     exists c0 c1 t b, bytes_of text = c0 :: c1 :: t /\ hex_text t b /\ parse (z2b 4 :: b) = Some p) /\
    ((exists e, ethereum_key text = Panic e) <-> (String.length text < 2)%nat).
  Proof.
    unfold KeyModel.ethereum_key. rewrite string_length.
    destruct (Nat.ltb_spec (length (bytes_of text)) 2) as [Hl|Hl].
    - split; [|split; [intros _; lia|by eexists]]. split; [done|].
      intros (c0 & c1 & t & b & E & _). rewrite E in Hl. cbn in Hl. lia.
    - destruct (bytes_of text) as [|c0 [|c1 t]] eqn:Et; [cbn in Hl; lia..|].
      change (drop 2 (c0 :: c1 :: t)) with t.
      unfold KeyModel.uncompressed_key. rewrite string_bytes. split.
      + split.
        * destruct (hex_decode t) as [b|] eqn:E; [|done]. intros Hp. apply parsed_ok in Hp.
          exists c0, c1, t, b. split; [done|]. split; [by apply hex_decode_iff|done].
        * intros (c0' & c1' & t' & b & [= <- <- <-] & E & Hp). apply hex_decode_iff in E. rewrite E.
          by apply parsed_ok.
      + split; [|lia]. intros [e H]. exfalso. destruct (hex_decode t); [|done].
        unfold parsed in H. by destruct (parse _).
  Qed.

  (** * C74 *)

  (** The two descriptions of the curve library agree. *)
  Definition agrees : Prop :=
    (forall b, p_key_ok P b = true <-> is_Some (parse b)) /\
    (forall b p r s h, parse b = Some p -> p_verify P b r s h = check p r s h).

  (** Base64 text is read back. *)
  Definition base64_ok : Prop := forall b, p_base64 P (b64 b) = Some b.

  (** The private key [d] signs the message as [(r, s)], and that is a signature. *)
  Definition signs (d message : bytes) (r s : Z) : Prop :=
    0 < r < curve_n /\ 0 < s < curve_n /\ sign d message = Some (der_of r s) /\
    check (pub_of d) r s (p_sha256 P message) = true.

  Lemma verify_readable message sig p text :
    agrees -> strict_key text = Ok p ->
    verify_fetchai P message sig text =
    match parse_fetchai_signature P sig with
    | Ok (r, s) => Ok (check p r s (p_sha256 P message))
    | Err e => Err e
    | Panic e => Panic e
    end.
  Proof.
    intros [A1 A2] H. apply C73_strict in H as (b & Hb & Hp).
    unfold verify_fetchai. rewrite (proj2 (hex_decode_iff _ _) Hb).
    rewrite (proj2 (A1 b)) by (by eexists). cbn [negb].
    destruct (parse_fetchai_signature P sig) as [[r s]| |]; cbn [rbind fst snd]; [|done..].
    by rewrite (A2 b p).
  Qed.

  (** What SignFetchAI returns is a pair of numbers again for the node that checks it. If
      s has as many bytes as r, or one more, it is the pair that was signed and the check
      succeeds; otherwise it is another pair or none at all. *)
  Theorem C74_signed message key d p r s :
    agrees -> base64_ok ->
    key_pair key = Ok (d, p) -> readable p -> signs d message r s ->
    exists sig, sign_fetchai message key = Ok sig /\
      ((byte_len s = byte_len r \/ byte_len s = S (byte_len r)) ->
       verify_fetchai P message sig (key_text p) = Ok true) /\
      (byte_len s <> byte_len r -> byte_len s <> S (byte_len r) ->
       (exists e, verify_fetchai P message sig (key_text p) = Err e) \/
       exists r' s', (r', s') <> (r, s) /\
         verify_fetchai P message sig (key_text p) = Ok (check p r' s' (p_sha256 P message))).
  Proof.
    intros HA HB Hk Hp (Hr & Hs & Hd & Hc).
    destruct (C73_round_trip p Hp) as (Hs1 & _).
    destruct (C51_text_form _ _ _ (der_of_parse r s Hr Hs)) as (text & Ht & Hiff).
    exists (b64 text). split.
    { unfold KeyModel.sign_fetchai. rewrite Hk. cbn [rbind fst]. by rewrite Hd, Ht. }
    rewrite (verify_readable _ _ _ _ HA Hs1). unfold parse_fetchai_signature. rewrite HB.
    apply C73_pair in Hk as [_ ->]. split.
    - intros Hl. rewrite (proj2 Hiff Hl). by rewrite Hc.
    - intros H1 H2. destruct (parse_sig false (str_to_der text)) as [[r' s']|] eqn:E.
      + right. exists r', s'. split; [|done]. intros [= -> ->]. destruct (proj1 Hiff eq_refl); done.
      + left. by eexists.
  Qed.

  (** A record whose proof is made with SignFetchAI is accepted in the first case. *)
  Theorem C74_record key d p r s addr peer_key :
    agrees -> base64_ok ->
    key_pair key = Ok (d, p) -> readable p -> signs d (bytes_of peer_key) r s ->
    (byte_len s = byte_len r \/ byte_len s = S (byte_len r)) ->
    agent_address P "fetchai" (key_text p) = Ok addr ->
    exists sig, sign_fetchai (bytes_of peer_key) key = Ok sig /\
      forall service nb na,
        is_valid_por P (Record_ service "fetchai" addr (key_text p) peer_key sig nb na) addr peer_key
        = Ok (0, false).
  Proof.
    intros HA HB Hk Hp Hsg Hl Ha.
    destruct (C74_signed _ _ _ _ _ _ HA HB Hk Hp Hsg) as (sig & Hsig & Hv & _).
    exists sig. split; [done|]. intros service nb na. unfold is_valid_por. cbn [r_address r_ledger r_peer_key r_public_key r_signature].
    rewrite String.eqb_refl. cbn [negb]. change (existsb _ _) with true. cbn [negb].
    rewrite String.eqb_refl. cbn [negb]. rewrite Ha, String.eqb_refl. cbn [negb].
    unfold verify_ledger. rewrite String.eqb_refl. by rewrite Hv.
  Qed.

  (** The DER signature itself, which the node sends to the agent for its certificate,
      is always accepted. *)
  Theorem C74_der d message r s :
    signs d message r s -> libp2p_verify (pub_of d) message (der_of r s) = Ok true.
  Proof.
    intros (Hr & Hs & _ & Hc). unfold KeyModel.libp2p_verify.
    rewrite (der_of_parse r s Hr Hs). by rewrite Hc.
  Qed.

  Lemma parse_strict_lax l v : parse_sig true l = Some v -> parse_sig false l = Some v.
  Proof.
    unfold parse_sig. destruct l as [|t [|sl l]]; [done..|]. cbv zeta. cbn [andb].
    destruct (_ <? 8)%nat; [done|]. destruct (negb _); [done|]. destruct (_ || _); [done|].
    destruct (drop 2 _) as [|m1 [|rl rest]]; [done..|]. destruct (negb _); [done|].
    destruct (_ || _); [done|]. destruct (negb (canonical _)); [done|].
    destruct (drop _ rest) as [|m2 [|sl2 rest2]]; [done..|]. destruct (negb _); [done|].
    destruct (_ || _); [done|]. by destruct (negb (canonical _)).
  Qed.

  (** VerifyFetchAISignatureLibp2p accepts nothing VerifyFetchAISignatureBTC refuses, for
      key texts that are hexadecimal. *)
  Theorem C74_stricter message sig text p :
    agrees -> strict_key text = Ok p ->
    verify_libp2p message sig text = Ok true -> verify_fetchai P message sig text = Ok true.
  Proof.
    intros HA Hs. rewrite (verify_readable _ _ _ _ HA Hs).
    unfold KeyModel.verify_libp2p. rewrite (C73_lenient_more _ _ Hs). cbn [rbind].
    unfold parse_fetchai_signature, KeyModel.libp2p_verify.
    destruct (p_base64 P sig) as [b|]; [|done].
    destruct (parse_sig true (str_to_der b)) as [[r s]|] eqn:E; [|done].
    by rewrite (parse_strict_lax _ _ E).
  Qed.

  Lemma canonical_32 z : 0 < z < 2 ^ 256 -> canonical (be_bytes 32 z) = true <-> 2 ^ 247 <= z < 2 ^ 255.
  Proof.
    intros Hz. pose proof (be_bytes_length 32 z) as L. pose proof (be_val_bytes 32 z) as V.
    change (256 ^ Z.of_nat 32) with (2 ^ 256) in V. rewrite Z.mod_small in V by lia.
    destruct (be_bytes 32 z) as [|a [|b l]] eqn:E; [done..|]. cbn [length] in L. injection L as L.
    cbn [be_val] in V. rewrite be_val_acc in V. pose proof (be_val_range l) as Hl. rewrite L in *.
    pose proof (b2z_range a). pose proof (b2z_range b).
    change (256 ^ Z.of_nat 30) with (2 ^ 240) in *. unfold canonical.
    change (2 ^ 247) with (128 * 2 ^ 240). change (2 ^ 255) with (128 * 256 * 2 ^ 240).
    change (2 ^ 256) with (256 * 256 * 2 ^ 240) in Hz.
    generalize dependent (2 ^ 240). intros k. intros.
    destruct (Z.leb_spec 128 (b2z a)); cbn [negb andb].
    { split; [done|]. nia. }
    destruct (Z.eqb_spec (b2z a) 0); cbn [andb negb].
    - destruct (Z.ltb_spec (b2z b) 128); cbn [negb]; (split; [|done || nia]); [done|nia].
    - split; [nia|done].
  Qed.

  (** On a signature of 64 bytes, as the Python framework writes it, the two agree exactly
      if both numbers are at least 2^247 and below 2^255; otherwise the first reports an
      error whatever the signature. *)
  Theorem C74_fixed_width message sig text p r s :
    agrees -> strict_key text = Ok p -> 0 < r < curve_n -> 0 < s < curve_n ->
    p_base64 P sig = Some (be_bytes 32 r ++ be_bytes 32 s) ->
    verify_fetchai P message sig text = Ok (check p r s (p_sha256 P message)) /\
    (2 ^ 247 <= r < 2 ^ 255 -> 2 ^ 247 <= s < 2 ^ 255 ->
     verify_libp2p message sig text = Ok (check p r s (p_sha256 P message))) /\
    (~ (2 ^ 247 <= r < 2 ^ 255 /\ 2 ^ 247 <= s < 2 ^ 255) ->
     exists e, verify_libp2p message sig text = Err e).
  Proof.
    intros HA Hs Hr Hv Hb. split.
    { rewrite (verify_readable _ _ _ _ HA Hs). unfold parse_fetchai_signature. rewrite Hb.
      by rewrite (C51_fixed_width r s Hr Hv). }
    unfold KeyModel.verify_libp2p. rewrite (C73_lenient_more _ _ Hs). cbn [rbind]. rewrite Hb.
    unfold KeyModel.libp2p_verify.
    assert (parse_sig true (str_to_der (be_bytes 32 r ++ be_bytes 32 s)) =
            if canonical (be_bytes 32 r) && canonical (be_bytes 32 s) then Some (r, s) else None) as E.
    { pose proof curve_n_256.
      assert (length (be_bytes 32 r ++ be_bytes 32 s) = 64%nat) as L
        by (rewrite app_length, !be_bytes_length; done).
      unfold str_to_der. rewrite L. change (64 / 2)%nat with 32%nat. cbv zeta.
      rewrite (take_app_length (be_bytes 32 r)) by (by rewrite be_bytes_length).
      rewrite (drop_app_length (be_bytes 32 r)) by (by rewrite be_bytes_length).
      cbn [app]. rewrite (parse_form true) by (rewrite !be_bytes_length; lia).
      rewrite !be_val_bytes. change (256 ^ Z.of_nat 32) with (2 ^ 256). rewrite !Z.mod_small by lia. cbv zeta.
      replace (0 <? r) with true by lia. replace (0 <? s) with true by lia.
      replace (r <? curve_n) with true by lia. replace (s <? curve_n) with true by lia.
      by destruct (canonical (be_bytes 32 r)), (canonical (be_bytes 32 s)). }
    rewrite E. pose proof curve_n_256.
    pose proof (canonical_32 r ltac:(lia)) as C1. pose proof (canonical_32 s ltac:(lia)) as C2.
    destruct (canonical (be_bytes 32 r)), (canonical (be_bytes 32 s)); cbn [andb];
      (split; [intros; first [done|exfalso; tauto|idtac]|intros Hn; first [by eexists|exfalso; tauto]]).
    all: exfalso; destruct C1 as [_ C1], C2 as [_ C2]; first [by specialize (C1 ltac:(done))|by specialize (C2 ltac:(done))].
  Qed.
End Key.

Print Assumptions C73_strict.
Print Assumptions C73_lenient.
Print Assumptions C73_lenient_more.
Print Assumptions C73_round_trip.
Print Assumptions C73_id.
Print Assumptions C73_uncompressed.
Print Assumptions C73_record.
Print Assumptions C73_agent.
Print Assumptions C73_pair.
Print Assumptions C73_public.
Print Assumptions C73_wallet.
Print Assumptions C73_prefixed.
Print Assumptions C73_ethereum.
Print Assumptions C74_signed.
Print Assumptions C74_record.
Print Assumptions C74_der.
Print Assumptions C74_stricter.
Print Assumptions C74_fixed_width.

(** A small library: keys are four bytes, a key is its own compressed form, and the one
    signature is [(r, s)]. *)
Definition tiny_parse (b : bytes) : option bytes := if (length b =? 4)%nat then Some b else None.
Definition tiny_check (r s : Z) (p : bytes) (x y : Z) (h : bytes) : bool := (x =? r) && (y =? s).
Definition tiny (r s : Z) : prims := {|
  p_sha256 := p_sha256 toy; p_ripemd160 := p_ripemd160 toy; p_keccak256 := p_keccak256 toy;
  p_base64 := p_base64 toy; p_key_ok := p_key_ok toy; p_verify := tiny_check r s; p_recover := p_recover toy;
|}.
Definition tiny_pub (d : bytes) : bytes := take 4 (d ++ map z2b [10; 11; 12; 13]).
Definition tiny_sign (r s : Z) (d m : bytes) : option bytes := Some (der_of r s).

Lemma tiny_agrees r s : agrees bytes (tiny r s) tiny_parse (tiny_check r s).
Proof.
  split; [|done]. intros b. cbn. unfold tiny_parse. destruct (Nat.eqb _ 4); [by split; eauto|].
  by split; [|intros [? ?]].
Qed.
Lemma tiny_base64 r s : base64_ok (tiny r s) string_of.
Proof. intros b. cbn. by rewrite string_bytes. Qed.

(** Not so: two texts of one key are as good as each other. In capitals the text names the
    same key and peer, and no record with it is accepted by that peer. *)
Theorem C73_capitals_refuted :
  exists P (parse : bytes -> option bytes) p text, readable bytes parse id p /\
    strict_key bytes parse text = Ok p /\
    (forall peer_id, id_of_text bytes parse peer_id text = id_of_text bytes parse peer_id (key_text bytes id p)) /\
    forall r addr, r_peer_key r = text ->
      is_valid_por P r addr (key_text bytes id p) <> Ok (0, false).
Proof.
  exists toy, tiny_parse, (map z2b [10; 11; 12; 13]), "0A0B0C0D".
  split; [reflexivity|]. split; [reflexivity|]. split; [reflexivity|].
  intros r addr E H. apply C73_record in H. rewrite E in H. by vm_compute in H.
Qed.
Print Assumptions C73_capitals_refuted.

(** Not so: a key text the agent takes is one the node would take. *)
Theorem C73_garbage_refuted :
  exists (parse : bytes -> option bytes) p text, readable bytes parse id p /\
    lenient_key bytes parse text = Ok p /\ exists e, strict_key bytes parse text = Err e.
Proof.
  exists tiny_parse, (map z2b [10; 11; 12; 13]), "0a0b0c0d and more".
  split; [reflexivity|]. split; [reflexivity|]. by eexists.
Qed.
Print Assumptions C73_garbage_refuted.

Example C73_example :
  readable bytes tiny_parse id (map z2b [10; 11; 12; 13]) /\
  key_text bytes id (map z2b [10; 11; 12; 13]) = "0a0b0c0d" /\
  strict_key bytes tiny_parse "0a0B0c0D" = Ok (map z2b [10; 11; 12; 13]) /\
  id_of_uncompressed bytes tiny_parse string_of "414243" = Ok (String (z2b 4) "ABC") /\
  ethereum_key bytes tiny_parse "--414243" = Ok (z2b 4 :: bytes_of "ABC") /\
  key_pair bytes tiny_pub "0A" = Ok ([z2b 10], map z2b [10; 10; 11; 12]) /\
  text_of_private bytes id tiny_pub "0A" = Ok "0a0a0b0c" /\
  no_pair (bytes_of " and more") /\ no_pair (bytes_of "a!") /\ ~ no_pair (bytes_of "ab").
Proof.
  do 7 (split; [reflexivity|]).
  split; [|split].
  - intros x y l [= <- <- _] [H _]. vm_compute in H. intuition congruence.
  - intros x y l [= <- <- _] [_ H]. vm_compute in H. intuition congruence.
  - intros H. apply (H _ _ _ eq_refl). split; vm_compute; tauto.
Qed.

(** Not so: every signature of SignFetchAI is accepted under the key that made it. *)
Theorem C74_accepted_refuted :
  exists P (parse : bytes -> option bytes) pub_of check sign b64 key d p message r s sig,
    agrees bytes P parse check /\ base64_ok P b64 /\ key_pair bytes pub_of key = Ok (d, p) /\
    readable bytes parse id p /\ signs bytes P pub_of check sign d message r s /\
    sign_fetchai bytes pub_of sign b64 message key = Ok sig /\
    verify_fetchai P message sig (key_text bytes id p) = Ok false.
Proof.
  set (r := 2 ^ 250 + 7). set (s := 2 ^ 233 + 5).
  exists (tiny r s), tiny_parse, tiny_pub, (tiny_check r s), (tiny_sign r s), string_of.
  exists "0a", [z2b 10], (map z2b [10; 10; 11; 12]), (bytes_of "hello"), r, s.
  exists (string_of (int_bytes r ++ int_bytes s)).
  split; [apply tiny_agrees|]. split; [apply tiny_base64|]. split; [reflexivity|]. split; [reflexivity|].
  split; [split; [split; reflexivity|split; [split; reflexivity|split; reflexivity]]|].
  split; vm_compute; reflexivity.
Qed.
Print Assumptions C74_accepted_refuted.

(** Not so: the two checks agree on every signature. *)
Theorem C74_agree_refuted :
  exists P (parse : bytes -> option bytes) pub_of check sign b64 key d p message r s sig e,
    agrees bytes P parse check /\ base64_ok P b64 /\ key_pair bytes pub_of key = Ok (d, p) /\
    readable bytes parse id p /\ signs bytes P pub_of check sign d message r s /\
    sign_fetchai bytes pub_of sign b64 message key = Ok sig /\
    verify_fetchai P message sig (key_text bytes id p) = Ok true /\
    verify_libp2p bytes P parse check message sig (key_text bytes id p) = Err e.
Proof.
  set (r := 2 ^ 255 + 3). set (s := 2 ^ 254 + 9).
  exists (tiny r s), tiny_parse, tiny_pub, (tiny_check r s), (tiny_sign r s), string_of.
  exists "0a", [z2b 10], (map z2b [10; 10; 11; 12]), (bytes_of "hello"), r, s.
  exists (string_of (int_bytes r ++ int_bytes s)). eexists.
  split; [apply tiny_agrees|]. split; [apply tiny_base64|]. split; [reflexivity|]. split; [reflexivity|].
  split; [split; [split; reflexivity|split; [split; reflexivity|split; reflexivity]]|].
  split; [|split]; vm_compute; reflexivity.
Qed.
Print Assumptions C74_agree_refuted.

Example C74_example :
  let r := 2 ^ 254 + 3 in let s := 2 ^ 253 + 9 in
  let P := tiny r s in
  agrees bytes P tiny_parse (tiny_check r s) /\ base64_ok P string_of /\
  signs bytes P tiny_pub (tiny_check r s) (tiny_sign r s) [z2b 10] (bytes_of "hello") r s /\
  byte_len s = byte_len r /\ 2 ^ 247 <= r < 2 ^ 255 /\ 2 ^ 247 <= s < 2 ^ 255 /\
  exists sig, sign_fetchai bytes tiny_pub (tiny_sign r s) string_of (bytes_of "hello") "0A" = Ok sig /\
    verify_fetchai P (bytes_of "hello") sig "0a0a0b0c" = Ok true /\
    verify_libp2p bytes P tiny_parse (tiny_check r s) (bytes_of "hello") sig "0a0a0b0c" = Ok true /\
    p_base64 P sig = Some (be_bytes 32 r ++ be_bytes 32 s).
Proof.
  intros r s P. split; [apply tiny_agrees|]. split; [apply tiny_base64|].
  split; [split; [split; reflexivity|split; [split; reflexivity|split; reflexivity]]|].
  split; [reflexivity|]. split; [split; done|]. split; [split; done|].
  exists (string_of (int_bytes r ++ int_bytes s)).
  split; [vm_compute; reflexivity|]. split; [vm_compute; reflexivity|].
  split; [vm_compute; reflexivity|]. vm_compute. reflexivity.
Qed.
