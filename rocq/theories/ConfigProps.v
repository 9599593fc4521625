(** Properties of configuration and joining: C54, C66, C67, C68. *)
From Coq Require Import ZArith NArith List String Ascii Lia Floats.SpecFloat.
From stdpp Require Import base tactics list strings pretty.
From Verif Require Import GoBase Bytes HexModel CryptoModel Utf8 WireModel ProtoModel PorModel CryptoProps PorProps ConfigModel.
Open Scope string_scope.
Open Scope list_scope.
Open Scope Z_scope.

(** ** C54 *)

(** Decimal text, on its own. *)
Definition is_digit (c : ascii) : bool := existsb (Ascii.eqb c) (list_ascii_of_string "0123456789").
Definition decimal (s : string) : Z := fold_left (fun n c => 10 * n + Z.of_N (N_of_ascii c) - 48) (list_ascii_of_string s) 0.
Definition all_digits (s : string) : bool := forallb is_digit (list_ascii_of_string s).

Lemma digit_spec c : is_digit c = negb ((b2z c - 48 <? 0) || (9 <? b2z c - 48)).
Proof. destruct c as [[] [] [] [] [] [] [] []]; vm_compute; done. Qed.

Lemma digit_range c : is_digit c = true -> 0 <= Z.of_N (N_of_ascii c) - 48 <= 9.
Proof. rewrite digit_spec. unfold b2z. intros H. lia. Qed.

Definition dec_from (n : Z) (l : list ascii) : Z := fold_left (fun n c => 10 * n + Z.of_N (N_of_ascii c) - 48) l n.

Lemma dec_from_ge n l : 0 <= n -> forallb is_digit l = true -> n <= dec_from n l.
Proof.
  revert n. induction l as [|c l IH]; intros n Hn; [by intros; cbn|]. cbn [forallb]. intros [Hc Hl]%andb_true_iff.
  pose proof (digit_range c Hc).
  assert (10 * n + Z.of_N (N_of_ascii c) - 48 <= dec_from (10 * n + Z.of_N (N_of_ascii c) - 48) l) by (apply IH; [lia|done]).
  change (dec_from n (c :: l)) with (dec_from (10 * n + Z.of_N (N_of_ascii c) - 48) l). lia.
Qed.

Lemma parse_digits_all n s :
  0 <= n <= 65535 -> all_digits s = true ->
  fst (parse_digits n s) = Z.min 65535 (dec_from n (list_ascii_of_string s)) /\
  (snd (parse_digits n s) = PNone <-> dec_from n (list_ascii_of_string s) <= 65535) /\ snd (parse_digits n s) <> PSyntax.
Proof.
  revert n. induction s as [|c s IH]; intros n Hn Hs; [cbn; split; [lia|split; [|done]; split; [lia|done]]|].
  unfold all_digits in *. cbn [list_ascii_of_string forallb] in *. apply andb_true_iff in Hs as [Hc Hs].
  pose proof (digit_range c Hc) as Hr. rewrite digit_spec in Hc. apply negb_true_iff in Hc.
  cbn [parse_digits]. rewrite Hc. unfold b2z in *.
  change (dec_from n (c :: list_ascii_of_string s)) with (dec_from (10 * n + Z.of_N (N_of_ascii c) - 48) (list_ascii_of_string s)).
  replace (10 * n + Z.of_N (N_of_ascii c) - 48) with (n * 10 + (Z.of_N (N_of_ascii c) - 48)) by lia.
  destruct (Z.ltb_spec 65535 (n * 10 + (Z.of_N (N_of_ascii c) - 48))) as [Hlt|Hle].
  - assert (Hge : n * 10 + (Z.of_N (N_of_ascii c) - 48) <= dec_from (n * 10 + (Z.of_N (N_of_ascii c) - 48)) (list_ascii_of_string s)) by (apply dec_from_ge; [lia|done]).
    cbn [fst snd]. split; [lia|]. split; [|done]. split; [done|]. lia.
  - apply IH; [lia|done].
Qed.

(** A port of digits only is read as the number, up to 65535. *)
Theorem C54_port s :
  s <> "" -> all_digits s = true ->
  parse_uint16 s = (Z.min 65535 (decimal s), if decimal s <=? 65535 then PNone else PRange).
Proof.
  intros Hs Hd. destruct (parse_digits_all 0 s) as (H1 & H2 & H3); [lia|done|].
  replace (parse_uint16 s) with (parse_digits 0 s) by (by destruct s).
  destruct (parse_digits 0 s) as [v e]. cbn in *. subst v. change (dec_from 0 (list_ascii_of_string s)) with (decimal s) in *. f_equal.
  destruct (Z.leb_spec (decimal s) 65535); destruct e; try done; [by apply H2|].
  assert (decimal s <= 65535) by (by apply H2). lia.
Qed.
Print Assumptions C54_port.

(** Any other text is read as 0, or as 65535 if the digits before the first other
    character are already too much. *)
Theorem C54_port_malformed p c q :
  all_digits p = true -> is_digit c = false ->
  fst (parse_uint16 (p +:+ String c q)) = (if 65535 <? decimal p then 65535 else 0) /\
  snd (parse_uint16 (p +:+ String c q)) <> PNone.
Proof.
  intros Hp Hc.
  assert (Hgen : forall n, 0 <= n <= 65535 -> parse_digits n (p +:+ String c q) =
    if 65535 <? dec_from n (list_ascii_of_string p) then (65535, PRange) else (0, PSyntax)).
  { induction p as [|d p IH]; intros n Hn.
    - change ("" +:+ String c q) with (String c q). cbn [parse_digits list_ascii_of_string]. rewrite digit_spec in Hc. apply negb_false_iff in Hc. rewrite Hc.
      change (dec_from n []) with n. destruct (Z.ltb_spec 65535 n); [lia|done].
    - unfold all_digits in *. cbn [list_ascii_of_string forallb] in *. apply andb_true_iff in Hp as [Hd Hp].
      pose proof (digit_range d Hd) as Hr. rewrite digit_spec in Hd. apply negb_true_iff in Hd.
      change (String d p +:+ String c q) with (String d (p +:+ String c q)). cbn [parse_digits]. rewrite Hd. unfold b2z in *.
      change (dec_from n (d :: list_ascii_of_string p)) with (dec_from (10 * n + Z.of_N (N_of_ascii d) - 48) (list_ascii_of_string p)).
      replace (10 * n + Z.of_N (N_of_ascii d) - 48) with (n * 10 + (Z.of_N (N_of_ascii d) - 48)) by lia.
      destruct (Z.ltb_spec 65535 (n * 10 + (Z.of_N (N_of_ascii d) - 48))) as [Hlt|Hle].
      + assert (Hge : n * 10 + (Z.of_N (N_of_ascii d) - 48) <= dec_from (n * 10 + (Z.of_N (N_of_ascii d) - 48)) (list_ascii_of_string p)) by (apply dec_from_ge; [lia|done]).
        destruct (Z.ltb_spec 65535 (dec_from (n * 10 + (Z.of_N (N_of_ascii d) - 48)) (list_ascii_of_string p))); [done|]. lia.
      + apply IH; [done|lia]. }
  assert (E : parse_uint16 (p +:+ String c q) = parse_digits 0 (p +:+ String c q)) by (by destruct p).
  rewrite E, Hgen by lia. change (dec_from 0 (list_ascii_of_string p)) with (decimal p). by destruct (65535 <? decimal p).
Qed.
Print Assumptions C54_port_malformed.

(** No colon in a text. *)
Definition no_colon (s : string) : Prop := ~ In ":"%char (list_ascii_of_string s).

Lemma split_no_colon s : no_colon s -> split_on colon s = [s].
Proof.
  unfold no_colon. induction s as [|c s IH]; [done|]. cbn [list_ascii_of_string split_on]. intros H.
  destruct (Ascii.eqb_spec c colon) as [->|Hne]; [exfalso; apply H; by left|]. rewrite IH; [done|]. intros Hi. apply H. by right.
Qed.

Lemma split_colon a b : no_colon a -> split_on colon (a +:+ String ":" b) = a :: split_on colon b.
Proof.
  unfold no_colon. induction a as [|c a IH]; intros H; [done|]. change (String c a +:+ String ":" b) with (String c (a +:+ String ":" b)). cbn [split_on].
  cbn [list_ascii_of_string] in H. destruct (Ascii.eqb_spec c colon) as [->|Hne]; [exfalso; apply H; by left|].
  rewrite IH; [done|]. intros Hi. apply H. by right.
Qed.

Lemma colon_cases s : no_colon s \/ exists a b, no_colon a /\ s = a +:+ String ":" b.
Proof.
  unfold no_colon. induction s as [|c s IH]; [left; by intros []|]. destruct (Ascii.eqb_spec c ":") as [->|Hne].
  - right. exists "", s. split; [by intros []|done].
  - destruct IH as [IH|(a & b & Ha & ->)].
    + left. cbn. intros [?|?]; [congruence|done].
    + right. exists (String c a), b. split; [|done]. cbn. intros [?|?]; [congruence|done].
Qed.

(** A uri without a colon is refused; otherwise the host is what is before the first
    colon and the port is read from what is between it and the next, or the end. *)
Theorem C54_uri host port rest :
  no_colon host -> no_colon port ->
  parse_uri host = Err "malformed Uri" /\
  parse_uri (host +:+ String ":" port) = Ok (host, fst (parse_uint16 port)) /\
  parse_uri (host +:+ String ":" (port +:+ String ":" rest)) = Ok (host, fst (parse_uint16 port)).
Proof.
  intros Hh Hp. unfold parse_uri. rewrite (split_no_colon host) by done. rewrite !(split_colon host) by done.
  rewrite (split_no_colon port) by done. rewrite (split_colon port) by done. done.
Qed.
Print Assumptions C54_uri.

(** Every uri is of one of these forms. *)
Theorem C54_uri_total uri :
  (no_colon uri /\ parse_uri uri = Err "malformed Uri") \/
  exists host port, no_colon host /\ no_colon port /\
    (uri = host +:+ String ":" port \/ exists rest, uri = host +:+ String ":" (port +:+ String ":" rest)) /\
    parse_uri uri = Ok (host, fst (parse_uint16 port)) /\ 0 <= fst (parse_uint16 port) <= 65535.
Proof.
  assert (Hb : forall s, 0 <= fst (parse_uint16 s) <= 65535).
  { assert (Hg : forall s n, 0 <= n <= 65535 -> 0 <= fst (parse_digits n s) <= 65535).
    { induction s as [|c s IH]; intros n Hn; [done|]. cbn [parse_digits].
      destruct (b2z c - 48 <? 0) eqn:E1; [cbn; lia|]. destruct (9 <? b2z c - 48) eqn:E2; [cbn; lia|]. cbn [orb].
      destruct (Z.ltb_spec 65535 (n * 10 + (b2z c - 48))); [cbn; lia|]. apply IH. lia. }
    intros [|c s]; [done|]. apply Hg. lia. }
  destruct (colon_cases uri) as [H|(host & b & Hh & ->)].
  - left. split; [done|]. unfold parse_uri. by rewrite split_no_colon.
  - right. destruct (colon_cases b) as [H|(port & rest & Hp & ->)].
    + exists host, b. split; [done|]. split; [done|]. split; [by left|]. split; [|apply Hb]. by apply (C54_uri host b "").
    + exists host, port. split; [done|]. split; [done|]. split; [right; by exists rest|]. split; [|apply Hb]. by apply (C54_uri host port rest).
Qed.
Print Assumptions C54_uri_total.

Definition has_colon (s : string) : bool := existsb (Ascii.eqb ":"%char) (list_ascii_of_string s).

Lemma has_colon_spec s : has_colon s = false <-> no_colon s.
Proof.
  unfold has_colon, no_colon. split.
  - intros H Hi. assert (existsb (Ascii.eqb ":"%char) (list_ascii_of_string s) = true) by (apply existsb_exists; eexists; split; [done|apply Ascii.eqb_refl]). congruence.
  - intros H. apply not_true_iff_false. intros Hi. apply existsb_exists in Hi as (x & Hx & E). apply Ascii.eqb_eq in E. by subst x.
Qed.

Lemma in_mid c a b : In c (list_ascii_of_string (a +:+ String c b)).
Proof.
  induction a as [|d a IH]; [by left|]. change (String d a +:+ String c b) with (String d (a +:+ String c b)). by right.
Qed.

Lemma parse_uri_spec uri : if has_colon uri then exists v, parse_uri uri = Ok v else parse_uri uri = Err "malformed Uri".
Proof.
  destruct (C54_uri_total uri) as [[H1 H2]|(h & p & Hh & Hp & Hu & H2 & _)].
  - apply has_colon_spec in H1. by rewrite H1.
  - assert (has_colon uri = true) as ->; [|eauto]. apply not_false_iff_true. rewrite has_colon_spec. unfold no_colon. intros Hn. apply Hn.
    destruct Hu as [->|[r ->]]; apply in_mid.
Qed.

Lemma parse_optional_uri_spec uri :
  if String.eqb uri "" || has_colon uri then exists v, parse_optional_uri uri = Ok v else parse_optional_uri uri = Err "malformed Uri".
Proof. destruct uri as [|c uri]; [cbn; eauto|]. apply parse_uri_spec. Qed.

(** Key and uri given; the agent's three settings all given or all absent; each uri given
    has a colon; the local one is free; the delay, if given, is a number. *)
Definition acceptable (free : string -> bool) (parse_float : string -> option spec_float) (env : string -> string) : bool :=
  let given name := negb (String.eqb (env name) "") in
  let agent := map given ["AEA_TO_NODE"; "NODE_TO_AEA"; "AEA_AGENT_ADDR"] in
  given "AEA_P2P_ID" && given "AEA_P2P_URI" &&
  (forallb id agent || negb (existsb id agent)) &&
  forallb (fun name => negb (given name) || has_colon (env name))
    ["AEA_P2P_URI"; "AEA_P2P_URI_PUBLIC"; "AEA_P2P_DELEGATE_URI"; "AEA_P2P_URI_MONITORING"] &&
  free (env "AEA_P2P_URI") &&
  (negb (given "AEA_P2P_CFG_REGISTRATION_DELAY") ||
   match parse_float (env "AEA_P2P_CFG_REGISTRATION_DELAY") with Some _ => true | None => false end).

(** Init succeeds exactly on such environments and reports an error on all others. *)
Theorem C54_init free parse_float env :
  if acceptable free parse_float env then exists c, node_init free parse_float env = Ok c
  else exists x, node_init free parse_float env = Err x.
Proof.
  unfold acceptable, node_init. cbn [map forallb existsb id].
  destruct (String.eqb_spec (env "AEA_P2P_ID") "") as [|Hid]; [cbn; eauto|].
  destruct (String.eqb_spec (env "AEA_P2P_URI") "") as [|Hu]; [cbn; eauto|]. cbn [negb orb andb].
  unfold is_standalone.
  destruct (String.eqb (env "AEA_TO_NODE") ""), (String.eqb (env "NODE_TO_AEA") ""), (String.eqb (env "AEA_AGENT_ADDR") "");
    cbn [negb orb andb rbind]; try (by eauto).
  all: pose proof (parse_uri_spec (env "AEA_P2P_URI")) as H1; destruct (has_colon (env "AEA_P2P_URI"));
    [destruct H1 as [v1 H1]|]; rewrite H1; cbn [rbind negb orb andb]; [|by eauto].
  all: pose proof (parse_optional_uri_spec (env "AEA_P2P_URI_PUBLIC")) as H2; pose proof (parse_optional_uri_spec (env "AEA_P2P_DELEGATE_URI")) as H3;
    pose proof (parse_optional_uri_spec (env "AEA_P2P_URI_MONITORING")) as H4; rewrite !negb_involutive;
    destruct (String.eqb (env "AEA_P2P_URI_PUBLIC") "" || has_colon (env "AEA_P2P_URI_PUBLIC")); [destruct H2 as [v2 H2]|];
    destruct (String.eqb (env "AEA_P2P_DELEGATE_URI") "" || has_colon (env "AEA_P2P_DELEGATE_URI")); [destruct H3 as [v3 H3]| |destruct H3 as [v3 H3]|];
    destruct (String.eqb (env "AEA_P2P_URI_MONITORING") "" || has_colon (env "AEA_P2P_URI_MONITORING")); [destruct H4 as [v4 H4]| |destruct H4 as [v4 H4]| |destruct H4 as [v4 H4]| |destruct H4 as [v4 H4]|];
    rewrite H2, ?H3, ?H4; cbn [andb rbind]; rewrite ?H3, ?H4; cbn [rbind]; rewrite ?H4; cbn [rbind];
    (destruct (free (env "AEA_P2P_URI")); cbn [negb andb]; [|by eauto]); try (by eauto).
  all: destruct (env "AEA_P2P_CFG_REGISTRATION_DELAY") as [|d delay]; cbn [String.eqb orb]; [cbn [rbind]; by eauto|];
    destruct (parse_float (String d delay)); cbn [rbind]; by eauto.
Qed.
Print Assumptions C54_init.

(** Text put together with a separator. *)
Lemma split_concat sep s : String.concat (String sep "") (split_on sep s) = s /\ split_on sep s <> [] /\
  Forall (fun p => ~ In sep (list_ascii_of_string p)) (split_on sep s).
Proof.
  induction s as [|c s (IH1 & IH2 & IH3)]; [cbn; repeat split; [done|]; repeat constructor; by intros []|].
  cbn [split_on]. destruct (Ascii.eqb_spec c sep) as [->|Hne].
  - split; [|split; [done|]; constructor; [by intros []|done]]. destruct (split_on sep s) as [|p ps]; [done|]. cbn in *. by rewrite IH1.
  - destruct (split_on sep s) as [|p ps]; [done|]. apply Forall_cons in IH3 as [Hp Hps]. split; [|split; [done|]].
    + destruct ps as [|q ps]; [cbn in *; by rewrite IH1|].
      change (String c (String.concat (String sep "") (p :: q :: ps)) = String c s). by rewrite IH1.
    + constructor; [|done]. cbn. intros [?|?]; done.
Qed.

(** What an accepted configuration is. *)
Theorem C54_config free parse_float env c :
  node_init free parse_float env = Ok c ->
  nc_key c = env "AEA_P2P_ID" /\ nc_agent c = env "AEA_AGENT_ADDR" /\
  (nc_standalone c = true <-> env "AEA_AGENT_ADDR" = "") /\
  (nc_standalone c = true <-> nc_pipe_port c = None) /\
  (forall p, nc_pipe_port c = Some p -> p = fst (parse_uint16 (env "AEA_TO_NODE"))) /\
  (nc_record c = None <-> env "AEA_P2P_POR_ADDRESS" = "") /\
  (forall r, nc_record c = Some r -> r_address r = env "AEA_P2P_POR_ADDRESS" /\ r_public_key r = env "AEA_P2P_POR_PUBKEY" /\
     r_peer_key r = env "AEA_P2P_POR_PEER_PUBKEY" /\ r_signature r = env "AEA_P2P_POR_SIGNATURE" /\
     r_service r = env "AEA_P2P_POR_SERVICE_ID" /\ r_ledger r = env "AEA_P2P_POR_LEDGER_ID") /\
  parse_uri (env "AEA_P2P_URI") = Ok (nc_local c) /\
  (forall name v, In (name, v) [("AEA_P2P_URI_PUBLIC", nc_public c); ("AEA_P2P_DELEGATE_URI", nc_delegate c); ("AEA_P2P_URI_MONITORING", nc_monitoring c)] ->
     if String.eqb (env name) "" then v = ("", 0) else parse_uri (env name) = Ok v) /\
  (if String.eqb (env "AEA_P2P_ENTRY_URIS") "" then nc_entries c = []
   else String.concat "," (nc_entries c) = env "AEA_P2P_ENTRY_URIS" /\ Forall (fun e => ~ In ","%char (list_ascii_of_string e)) (nc_entries c)) /\
  nc_mailbox c = env "AEA_P2P_MAILBOX_URI" /\ nc_storage c = env "AEA_P2P_CFG_STORAGE_PATH" /\
  (if String.eqb (env "AEA_P2P_CFG_REGISTRATION_DELAY") "" then nc_delay c = S754_zero false
   else parse_float (env "AEA_P2P_CFG_REGISTRATION_DELAY") = Some (nc_delay c)).
Proof.
  unfold node_init. destruct (_ || _); [done|]. unfold is_standalone.
  destruct (String.eqb_spec (env "AEA_TO_NODE") "") as [E1|E1], (String.eqb_spec (env "NODE_TO_AEA") "") as [E2|E2],
    (String.eqb_spec (env "AEA_AGENT_ADDR") "") as [E3|E3]; cbn [andb orb rbind]; try done.
  all: destruct (parse_uri (env "AEA_P2P_URI")) as [local|x|x] eqn:El; cbn [rbind]; try done; destruct (negb _); [done|].
  all: destruct (parse_optional_uri (env "AEA_P2P_URI_PUBLIC")) as [pu|x|x] eqn:Ep; cbn [rbind]; try done.
  all: destruct (parse_optional_uri (env "AEA_P2P_DELEGATE_URI")) as [de|x|x] eqn:Ed; cbn [rbind]; try done.
  all: destruct (parse_optional_uri (env "AEA_P2P_URI_MONITORING")) as [mo|x|x] eqn:Em; cbn [rbind]; try done.
  all: destruct (match env "AEA_P2P_CFG_REGISTRATION_DELAY" with "" => _ | _ => _ end) as [delay|x|x] eqn:Edl; cbn [rbind]; try done.
  all: intros [= <-]; cbn.
  all: split; [done|]; split; [done|]; split; [by split|]; split; [by split|]; split; [by intros p [= <-] || done|].
  all: split; [unfold por_record; by destruct (env "AEA_P2P_POR_ADDRESS")|].
  all: split; [unfold por_record; intros r Hr; destruct (env "AEA_P2P_POR_ADDRESS"); [done|]; injection Hr as <-; done|].
  all: split; [done|]; split.
  all: try (intros name v Hin; repeat destruct Hin as [[= <- <-]|Hin]; try done;
    match goal with H : parse_optional_uri ?t = Ok ?v |- if String.eqb ?t "" then _ else _ =>
      destruct t; cbn in *; [by injection H as <-|done] end).
  all: split; [destruct (env "AEA_P2P_ENTRY_URIS") as [|c0 e0]; [done|]; cbn [String.eqb]; destruct (split_concat comma (String c0 e0)) as (? & _ & ?); done|].
  all: split; [done|]; split; [done|].
  all: destruct (env "AEA_P2P_CFG_REGISTRATION_DELAY"); cbn [String.eqb]; [by injection Edl as <-|];
    destruct (parse_float _); [by injection Edl as <-|done].
Qed.
Print Assumptions C54_config.

Lemma pretty_char_val d : (d < 10)%N -> b2z (pretty_N_char d) = 48 + Z.of_N d.
Proof.
  intros H. assert (Hd : In d [0; 1; 2; 3; 4; 5; 6; 7; 8; 9]%N) by (cbn; lia).
  repeat destruct Hd as [<-|Hd]; try reflexivity. done.
Qed.

Lemma parse_digit n d s :
  (d < 10)%N -> 0 <= n -> n * 10 + Z.of_N d < 65536 ->
  parse_digits n (String (pretty_N_char d) s) = parse_digits (n * 10 + Z.of_N d) s.
Proof.
  intros Hd Hn Hlt. cbn [parse_digits]. rewrite (pretty_char_val _ Hd).
  replace (48 + Z.of_N d - 48) with (Z.of_N d) by lia.
  destruct (Z.ltb_spec (Z.of_N d) 0), (Z.ltb_spec 9 (Z.of_N d)), (Z.ltb_spec 65535 (n * 10 + Z.of_N d)); try lia. done.
Qed.

Lemma parse_pretty_go n : forall s, (n < 65536)%N -> parse_digits 0 (pretty_N_go n s) = parse_digits (Z.of_N n) s.
Proof.
  induction n as [n IH] using (well_founded_induction N.lt_wf_0). intros s Hn.
  destruct (N.eq_dec n 0) as [->|Hne]; [by rewrite pretty_N_go_0|].
  rewrite pretty_N_go_step by lia.
  pose proof (N.div_mod n 10 ltac:(lia)) as Hdm. pose proof (N.mod_lt n 10 ltac:(lia)) as Hm.
  assert ((n / 10 < n)%N) by (apply N.div_lt; lia).
  rewrite IH by lia. rewrite parse_digit by lia. f_equal. lia.
Qed.

(** Every port is read back from its decimal form. *)
Theorem C54_round_trip n : (n < 65536)%N -> parse_uint16 (pretty n) = (Z.of_N n, PNone).
Proof.
  intros H. unfold pretty, pretty_N. destruct (decide (n = 0%N)) as [->|Hne]; [done|].
  assert (E : parse_digits 0 (pretty_N_go n "") = (Z.of_N n, PNone)) by (by rewrite parse_pretty_go).
  unfold parse_uint16. destruct (pretty_N_go n "") eqn:Ep; [|done].
  cbn [parse_digits] in E. injection E as E. lia.
Qed.
Print Assumptions C54_round_trip.

Definition set_env (l : list (string * string)) (name : string) : string :=
  match List.find (fun x => String.eqb (fst x) name) l with Some (_, v) => v | None => "" end.
Definition base_env : list (string * string) :=
  [("AEA_P2P_ID", "00ff"); ("AEA_P2P_URI", "127.0.0.1:9000"); ("AEA_TO_NODE", "5000"); ("NODE_TO_AEA", "5001"); ("AEA_AGENT_ADDR", "me")].
Definition no_float (_ : string) : option spec_float := None.
Definition is_free (_ : string) : bool := true.
Example C54_example :
  parse_uint16 "" = (0, PSyntax) /\ parse_uint16 "80x" = (0, PSyntax) /\ parse_uint16 "70000x" = (65535, PRange) /\
  parse_uint16 "00080" = (80, PNone) /\ parse_uri "[::1]:8000" = Ok ("[", 0) /\ parse_uri "host:8000:1" = Ok ("host", 8000) /\
  acceptable is_free no_float (set_env base_env) = true /\
  acceptable is_free no_float (set_env (("AEA_P2P_URI_PUBLIC", "host") :: base_env)) = false /\
  (match node_init is_free no_float (set_env (("AEA_P2P_ENTRY_URIS", "a,b,") :: base_env)) with
   | Ok c => nc_local c = ("127.0.0.1", 9000) /\ nc_entries c = ["a"; "b"; ""] /\ nc_pipe_port c = Some 5000 /\ nc_record c = None
   | _ => False end).
Proof. vm_compute. done. Qed.

(** ** C66 *)

(** A node runs as a client exactly if no public uri is given or its port is read as 0,
    as every port that is not a number is. *)
Theorem C66_mode free parse_float env c other :
  node_init free parse_float env = Ok c ->
  (exists key entries rec, plan other c = PlanClient key entries rec) <->
  (env "AEA_P2P_URI_PUBLIC" = "" \/
   exists host port, no_colon host /\ no_colon port /\ fst (parse_uint16 port) = 0 /\
     (env "AEA_P2P_URI_PUBLIC" = host +:+ String ":" port \/ exists rest, env "AEA_P2P_URI_PUBLIC" = host +:+ String ":" (port +:+ String ":" rest))).
Proof.
  intros H. apply C54_config in H as (_ & _ & _ & _ & _ & _ & _ & _ & H & _).
  specialize (H "AEA_P2P_URI_PUBLIC" (nc_public c) ltac:(by left)).
  assert (E : (exists key entries rec, plan other c = PlanClient key entries rec) <-> snd (nc_public c) = 0).
  { unfold plan. destruct (Z.eqb_spec (snd (nc_public c)) 0) as [E|E].
    - split; [done|]. intros _. by do 3 eexists.
    - split; [|done]. by intros (? & ? & ? & [=]). }
  rewrite E. destruct (String.eqb_spec (env "AEA_P2P_URI_PUBLIC") "") as [Hu|Hu].
  - rewrite H. split; [by left|done].
  - destruct (C54_uri_total (env "AEA_P2P_URI_PUBLIC")) as [[_ Hx]|(host & port & Hh & Hp & Hform & Hx & _)]; [congruence|].
    rewrite H in Hx. injection Hx as Hx. rewrite Hx. cbn [snd]. split.
    + intros H0. right. exists host, port. done.
    + intros [?|(host' & port' & Hh' & Hp' & H0 & Hform')]; [done|].
      assert (Hx' : parse_uri (env "AEA_P2P_URI_PUBLIC") = Ok (host', fst (parse_uint16 port'))).
      { destruct Hform' as [->|[rest ->]]; [apply (C54_uri host' port' "")|apply (C54_uri host' port' rest)]; done. }
      rewrite H in Hx'. injection Hx' as Hx'. rewrite Hx in Hx'. injection Hx' as _ Hx'. lia.
Qed.
Print Assumptions C66_mode.

(** A node with a public uri is not always a peer. *)
Theorem C66_public_refuted : exists env c key entries rec,
  env "AEA_P2P_URI_PUBLIC" = "acn.fetch.ai:9000a" /\ node_init is_free no_float env = Ok c /\ plan 0 c = PlanClient key entries rec.
Proof.
  exists (set_env (("AEA_P2P_URI_PUBLIC", "acn.fetch.ai:9000a") :: base_env)). do 4 eexists. split; [done|]. split; reflexivity.
Qed.
Print Assumptions C66_public_refuted.

(** What a peer is started with. *)
Theorem C66_peer other c :
  0 < snd (nc_public c) -> exists monitoring delay storage mailbox,
  plan other c = PlanPeer (nc_local c) (nc_public c) (nc_key c) (snd (nc_delegate c)) (nc_entries c) (nc_record c) monitoring delay storage mailbox /\
  (forall port, monitoring = Some port <-> snd (nc_monitoring c) = port /\ port <> 0) /\
  (delay = None <-> SFcompare (nc_delay c) (S754_zero false) = Some Eq) /\
  (forall path, storage = Some path <-> nc_storage c = path /\ path <> "") /\
  (forall uri, mailbox = Some uri <-> nc_mailbox c = uri /\ uri <> "").
Proof.
  intros Hp. unfold plan. destruct (Z.eqb_spec (snd (nc_public c)) 0); [lia|].
  do 4 eexists. split; [reflexivity|]. split; [|split; [|split]].
  - intros port. destruct (Z.eqb_spec (snd (nc_monitoring c)) 0); [split; [done|]; intros [<- ?]; done|].
    split; [intros [= <-]; done|]. intros [-> _]. done.
  - destruct (nc_delay c) as [?|s| |s m e]; cbn; split; try done; by destruct s.
  - intros path. destruct (nc_storage c); (split; [intros [=]|intros [<- ?]]); try done. by subst path.
  - intros path. destruct (nc_mailbox c); (split; [intros [=]|intros [<- ?]]); try done. by subst path.
Qed.
Print Assumptions C66_peer.

(** The registration delay is cut down to whole seconds: for a delay of m * 2^e seconds
    it is k seconds with k <= m * 2^e < k + 1, if that fits 64 bits in nanoseconds. *)
Theorem C66_delay other c s m e k :
  snd (nc_public c) <> 0 -> nc_delay c = S754_finite s m e -> 0 <= k < 9223372036 ->
  (if 0 <=? e then Z.pos m * 2 ^ e = k else k * 2 ^ (- e) <= Z.pos m < (k + 1) * 2 ^ (- e)) ->
  match plan other c with
  | PlanPeer _ _ _ _ _ _ _ delay _ _ => delay = Some (if s then - (k * 1000000000) else k * 1000000000)
  | _ => False
  end.
Proof.
  intros Hp Hd Hk He. unfold plan. destruct (Z.eqb_spec (snd (nc_public c)) 0); [done|]. rewrite Hd. cbn [float_nonzero duration_of_float].
  assert (Ea : (if 0 <=? e then Z.pos m * 2 ^ e else Z.pos m / 2 ^ (- e)) = k).
  { destruct (Z.leb_spec 0 e) as [He0|He0]; [done|]. symmetry. apply (Z.div_unique _ _ _ (Z.pos m - k * 2 ^ (- e))); lia. }
  rewrite Ea. f_equal.
  assert (Ev : (if (- 2 ^ 63 <=? (if s then - k else k)) && ((if s then - k else k) <? 2 ^ 63) then (if s then - k else k) else other) = if s then - k else k).
  { destruct (Z.leb_spec (- 2 ^ 63) (if s then - k else k)); [|destruct s; lia].
    destruct (Z.ltb_spec (if s then - k else k) (2 ^ 63)); [done|destruct s; lia]. }
  rewrite Ev. rewrite (wrap64_id ((if s then - k else k) * 1000000)) by (destruct s; lia).
  rewrite wrap64_id by (destruct s; lia). destruct s; lia.
Qed.
Print Assumptions C66_delay.

(** Accepted configurations in which the agent has no proof of representation, or one for
    another address. *)
Theorem C66_record_refuted :
  (exists env c, node_init is_free no_float env = Ok c /\ nc_agent c = "me" /\ nc_standalone c = false /\ nc_record c = None) /\
  (exists env c r, node_init is_free no_float env = Ok c /\ nc_agent c = "me" /\ nc_record c = Some r /\ r_address r = "you").
Proof.
  split.
  - exists (set_env base_env). eexists. split; [reflexivity|]. done.
  - exists (set_env (("AEA_P2P_POR_ADDRESS", "you") :: base_env)). do 2 eexists. split; [reflexivity|]. done.
Qed.
Print Assumptions C66_record_refuted.

Definition half_second (_ : string) : option spec_float := Some (S754_finite false 1 (-1)).
Definition peer_env : list (string * string) :=
  ("AEA_P2P_URI_PUBLIC", "acn.fetch.ai:9000") :: ("AEA_P2P_CFG_REGISTRATION_DELAY", "0.5") ::
  ("AEA_P2P_URI_MONITORING", "127.0.0.1:8081") :: base_env.
Example C66_example :
  match node_init is_free half_second (set_env peer_env) with
  | Ok c => plan 0 c = PlanPeer ("127.0.0.1", 9000) ("acn.fetch.ai", 9000) "00ff" 0 [] None (Some 8081) (Some 0) None None
  | _ => False end.
Proof. vm_compute. done. Qed.

(** ** C67 *)

(** What a started agent is: the wallet's key and address are those of the private key,
    on the only ledger supported; the record sent to the node is that of the
    environment, its signature is valid, and key and address given in the environment
    are the wallet's, or absent. *)
Theorem C67_started P derive loaded env w c :
  agent_init P derive loaded env = Ok (w, c) ->
  loaded = true /\ w_ledger w = "fetchai" /\ env "AEA_LEDGER_ID" = "fetchai" /\
  w_private_key w = env "AEA_PRIVATE_KEY" /\
  (exists b, hex_decode (bytes_of (w_private_key w)) = Some b /\ bytes_of (w_public_key w) = hex_encode (derive b)) /\
  agent_address P "fetchai" (w_public_key w) = Ok (w_address w) /\
  (env "AEA_PUBLIC_KEY" = "" \/ env "AEA_PUBLIC_KEY" = w_public_key w) /\
  (env "AEA_ADDRESS" = "" \/ env "AEA_ADDRESS" = w_address w) /\
  r_address (cc_record c) = env "AEA_ADDRESS" /\ r_public_key (cc_record c) = env "AEA_PUBLIC_KEY" /\
  r_peer_key (cc_record c) = env "AEA_P2P_POR_PEER_PUBKEY" /\ r_ledger (cc_record c) = env "AEA_P2P_POR_LEDGER_ID" /\
  verify_ledger P (r_ledger (cc_record c)) (bytes_of (r_peer_key (cc_record c))) (r_signature (cc_record c)) (r_public_key (cc_record c)) = Ok true /\
  cc_host c = env "AEA_P2P_DELEGATE_HOST" /\ parse_uint16 (env "AEA_P2P_DELEGATE_PORT") = (cc_port c, PNone).
Proof.
  unfold agent_init, wallet_init. destruct loaded; [|done]. cbn [negb].
  destruct (String.eqb_spec (env "AEA_LEDGER_ID") "") as [|_]; [done|].
  destruct (String.eqb (env "AEA_PRIVATE_KEY") ""); [done|].
  unfold public_key_of. destruct (String.eqb_spec (env "AEA_LEDGER_ID") "fetchai") as [El|]; [|done]. rewrite El.
  destruct (hex_decode (bytes_of (env "AEA_PRIVATE_KEY"))) as [b|] eqn:Eb; [|done].
  set (pk := string_of (hex_encode (derive b))).
  destruct (negb (String.eqb (env "AEA_PUBLIC_KEY") "") && negb (String.eqb pk (env "AEA_PUBLIC_KEY"))) eqn:Epk; [done|].
  destruct (agent_address P "fetchai" pk) as [a|x|x] eqn:Ea; [|done|done].
  destruct (negb (String.eqb (env "AEA_ADDRESS") "") && negb (String.eqb a (env "AEA_ADDRESS"))) eqn:Eaddr; [done|].
  unfold connection_init. cbn [negb r_ledger r_peer_key r_signature r_public_key].
  destruct (verify_ledger _ _ _ _ _) as [[]|x|x] eqn:Ev; try done.
  destruct (parse_uint16 (env "AEA_P2P_DELEGATE_PORT")) as [port []] eqn:Ep; try done. intros [= <- <-].
  cbn [w_ledger w_private_key w_public_key w_address cc_record cc_host cc_port r_address r_public_key r_peer_key r_ledger r_signature].
  split; [done|]. split; [done|]. split; [done|]. split; [done|]. split.
  { exists b. split; [done|]. unfold pk. by rewrite string_bytes. }
  split; [done|]. split.
  { destruct (String.eqb_spec (env "AEA_PUBLIC_KEY") ""); [by left|]. destruct (String.eqb_spec pk (env "AEA_PUBLIC_KEY")); [by right|done]. }
  split; [|done].
  destruct (String.eqb_spec (env "AEA_ADDRESS") ""); [by left|]. destruct (String.eqb_spec a (env "AEA_ADDRESS")); [by right|done].
Qed.
Print Assumptions C67_started.

(** With address and public key given, and the proof made on the wallet's ledger, a node
    with the key named accepts the record for the wallet's address. *)
Theorem C67_accepted P derive loaded env w c :
  agent_init P derive loaded env = Ok (w, c) ->
  env "AEA_ADDRESS" <> "" -> env "AEA_PUBLIC_KEY" <> "" -> env "AEA_P2P_POR_LEDGER_ID" = "fetchai" ->
  is_valid_por P (cc_record c) (w_address w) (env "AEA_P2P_POR_PEER_PUBKEY") = Ok (0, false).
Proof.
  intros H Ha Hk Hl. apply C67_started in H as (_ & _ & _ & _ & _ & Haddr & Hpk & Hadr & R1 & R2 & R3 & R4 & Hv & _).
  destruct Hpk as [?|Hpk]; [done|]. destruct Hadr as [?|Hadr]; [done|].
  apply C29_accepted, represents_iff. rewrite R1, R3, R4, R2, Hl, Hpk, Hadr in *. rewrite Haddr.
  split; [done|]. split; [by left|]. split; [done|]. split; [done|]. done.
Qed.
Print Assumptions C67_accepted.

(** Without the address in the environment, which the wallet does not need, or with a
    proof made on another ledger the agent starts all the same, and no node accepts the
    record, for any address. *)
Theorem C67_refused P derive loaded env w c addr peer_key :
  agent_init P derive loaded env = Ok (w, c) ->
  env "AEA_ADDRESS" = "" \/ env "AEA_P2P_POR_LEDGER_ID" <> "fetchai" ->
  is_valid_por P (cc_record c) addr peer_key <> Ok (0, false).
Proof.
  intros H Hcase. apply C67_started in H as (_ & _ & _ & _ & _ & Haddr & _ & Hadr & R1 & R2 & R3 & R4 & _).
  rewrite C29_accepted, represents_iff. rewrite R1, R2, R4. intros (_ & _ & _ & Ho & _).
  destruct (decide (env "AEA_ADDRESS" = "")) as [E|Hne].
  - rewrite E in Ho. apply agent_address_cases in Ho as [(b & _ & _ & Hb)|[(b & _ & _ & Hb)|(b & _ & _ & _ & Hb)]].
    + done.
    + done.
    + unfold checksum_address in Hb. done.
  - destruct Hcase as [?|Hl]; [done|]. destruct Hadr as [?|Hadr]; [done|]. rewrite Hadr in Ho.
    apply Hl. by apply (C58_ledgers_disjoint P _ _ _ _ _ Ho Haddr).
Qed.
Print Assumptions C67_refused.

Definition same (b : bytes) : bytes := b.
Definition agent_env : list (string * string) :=
  [("AEA_LEDGER_ID", "fetchai"); ("AEA_PRIVATE_KEY", "0A0b0c0D"); ("AEA_PUBLIC_KEY", "0a0b0c0d");
   ("AEA_P2P_POR_LEDGER_ID", "fetchai"); ("AEA_P2P_POR_PEER_PUBKEY", "peer");
   ("AEA_P2P_POR_SIGNATURE", string_of [z2b 10; z2b 11; z2b 12; z2b 13; "p"%char; "e"%char; "e"%char; "r"%char]);
   ("AEA_P2P_DELEGATE_HOST", "acn"); ("AEA_P2P_DELEGATE_PORT", "11000")].
Example C67_example :
  let address := "fetch1pg9scrg8qurswpc8qurswpc8qurswpc80ay04q" in
  (match agent_init toy same true (set_env (("AEA_ADDRESS", address) :: agent_env)) with
   | Ok (w, c) => w_address w = address /\ cc_port c = 11000 /\ is_valid_por toy (cc_record c) address "peer" = Ok (0, false)
   | _ => False end) /\
  (match agent_init toy same true (set_env agent_env) with
   | Ok (w, c) => w_address w = address /\ is_valid_por toy (cc_record c) address "peer" = Ok (10, true)
   | _ => False end) /\
  (match agent_init toy same true (set_env (("AEA_P2P_POR_LEDGER_ID", "cosmos") :: agent_env)) with
   | Ok (w, c) => r_ledger (cc_record c) = "cosmos"
   | _ => False end) /\
  agent_init toy same true (set_env (("AEA_ADDRESS", "you") :: agent_env)) = Panic "Derived and provided address don't match." /\
  agent_init toy same true (set_env (("AEA_LEDGER_ID", "ethereum") :: agent_env)) = Panic "Could not derive public key." /\
  agent_init toy same true (set_env (("AEA_P2P_DELEGATE_PORT", "70000") :: agent_env)) = Panic "strconv.ParseUint".
Proof. vm_compute. done. Qed.

(** ** C68 *)

Definition up (x : bool * bool * bool) : bool := x.1.1.
Definition in_table (x : bool * bool * bool) : bool := x.1.2.

Lemma await_table_spec peers : if forallb in_table peers then await_table peers = Ok tt else exists x, await_table peers = Err x.
Proof. induction peers as [|[[a []] c] peers IH]; cbn; eauto. Qed.

Lemma notify_spec peers : if forallb snd peers then notify_all peers = Ok tt else exists x, notify_all peers = Err x.
Proof. induction peers as [|[[a b] []] peers IH]; cbn; eauto. Qed.

(** Bootstrapping succeeds exactly if some connection was made and every entry peer, also
    one that cannot be reached, came into the routing table. *)
Theorem C68_bootstrap peers :
  if existsb up peers && forallb in_table peers then bootstrap_connect peers = Ok tt else exists x, bootstrap_connect peers = Err x.
Proof.
  unfold bootstrap_connect. destruct peers as [|p peers]; [cbn; eauto|]. set (l := p :: peers).
  assert (Hc : Nat.eqb (length (List.filter (fun x => negb x.1.1) l)) (length l) = negb (existsb up l)).
  { clearbody l. clear. induction l as [|x l IH]; [done|]. cbn [List.filter existsb]. unfold up at 1. destruct x.1.1; cbn [negb orb].
    - apply Nat.eqb_neq. assert (H : (length (List.filter (fun x => negb x.1.1) l) <= length l)%nat) by (clear; induction l as [|y l IH]; [done|]; cbn [List.filter]; destruct (negb _); cbn [length]; lia). cbn [length]. lia.
    - cbn [length]. exact IH. }
  rewrite Hc. destruct (existsb up l); cbn [negb andb]; [|eauto]. apply await_table_spec.
Qed.
Print Assumptions C68_bootstrap.

(** A peer joins exactly if every entry names a peer that came into its routing table and
    was notified, and it connected to one of them; without entries it starts alone. *)
Theorem C68_join entries :
  peer_join entries = Ok tt <->
  Forall (fun e => exists connects, e = EPeer connects true true) entries /\
  (entries = [] \/ In (EPeer true true true) entries).
Proof.
  unfold peer_join.
  assert (Hi : (exists peers, entry_infos entries = Ok peers /\ entries = map (fun x => EPeer x.1.1 x.1.2 x.2) peers) \/
    ((forall u, entry_infos entries <> Ok u) /\ ~ Forall (fun e => exists connects, e = EPeer connects true true) entries)).
  { induction entries as [|[| |a b c] entries IH]; cbn.
    - left. by exists [].
    - right. split; [done|]. intros [[? ?] _]%Forall_cons. done.
    - right. split; [done|]. intros [[? ?] _]%Forall_cons. done.
    - destruct IH as [(peers & -> & ->)|[H1 H2]].
      + left. exists ((a, b, c) :: peers). done.
      + right. split.
        * intros u. destruct (entry_infos entries) as [v|x|x]; [by destruct (H1 v)|done|done].
        * intros [_ H]%Forall_cons. done. }
  destruct Hi as [(peers & -> & ->)|[H1 H2]].
  2:{ destruct (entry_infos entries) as [u|x|x]; [by destruct (H1 u)|..]; (split; [done|]; intros [H _]; done). }
  cbn [rbind].
  assert (HF : Forall (fun e => exists connects, e = EPeer connects true true) (map (fun x => EPeer x.1.1 x.1.2 x.2) peers) <->
     forallb in_table peers = true /\ forallb snd peers = true).
  { clear. induction peers as [|[[a b] c] peers IH]; [by cbn; split; [|constructor]|]. cbn [map forallb in_table fst snd]. rewrite Forall_cons, IH, !andb_true_iff.
    split; [intros [[x [= -> -> ->]] [? ?]]; done|]. intros [[-> ?] [-> ?]]. eauto. }
  assert (HE : forallb in_table peers = true -> forallb snd peers = true ->
     (In (EPeer true true true) (map (fun x => EPeer x.1.1 x.1.2 x.2) peers) <-> existsb up peers = true)).
  { clear. induction peers as [|[[a b] c] peers IH]; [done|]. cbn. intros [-> H1]%andb_true_iff [-> H2]%andb_true_iff.
    rewrite orb_true_iff, IH by done. split; intros [H|H]; auto; [injection H as ->; by left|left]. by rewrite H. }
  rewrite HF. pose proof (C68_bootstrap peers) as Hb. pose proof (notify_spec peers) as Hn.
  destruct peers as [|p peers].
  - cbn. split; [auto|done].
  - destruct (forallb snd (p :: peers)) eqn:E1.
    + rewrite Hn. destruct (forallb in_table (p :: peers)) eqn:E2.
      * rewrite HE by done. rewrite andb_true_r in Hb. destruct (existsb up (p :: peers)).
        -- rewrite Hb. cbn [rbind]. split; [auto|done].
        -- destruct Hb as [x ->]. cbn [rbind]. split; [done|]. by intros [_ [?|?]].
      * rewrite andb_false_r in Hb. destruct Hb as [x ->]. cbn [rbind]. split; [done|]. by intros [[? ?] _].
    + split; [|by intros [[? ?] _]]. destruct Hn as [y ->]. destruct (bootstrap_connect (p :: peers)); done.
Qed.
Print Assumptions C68_join.

(** The node crashes exactly if an entry is not a multiaddress at all and those before it
    name peers. *)
Theorem C68_crash entries :
  (exists x, peer_join entries = Panic x) <->
  exists before after, entries = before ++ EMalformed :: after /\ Forall (fun e => exists a b c, e = EPeer a b c) before.
Proof.
  assert (Hno : forall peers x, (let* _ := match peers with [] => Ok tt | _ => bootstrap_connect peers end in notify_all peers) <> Panic x).
  { intros peers x. pose proof (notify_spec peers) as Hn. pose proof (C68_bootstrap peers) as Hb.
    assert (Hn' : notify_all peers <> Panic x) by (destruct (forallb snd peers); [rewrite Hn; done|destruct Hn as [? ->]; done]).
    destruct peers; [done|]. destruct (existsb up _ && forallb in_table _); [rewrite Hb; done|destruct Hb as [? ->]; done]. }
  unfold peer_join. split.
  - intros [x H]. assert (Hp : exists y, entry_infos entries = Panic y).
    { destruct (entry_infos entries) as [peers|y|y]; [by destruct (Hno peers x)|done|eauto]. }
    clear H. destruct Hp as [y Hp]. revert Hp. induction entries as [|[| |a b c] entries IH]; cbn; try done.
    + intros _. exists [], entries. done.
    + destruct (entry_infos entries); cbn; try done. intros [= ->]. destruct (IH eq_refl) as (b1 & a1 & -> & HF).
      exists (EPeer a b c :: b1), a1. split; [done|]. constructor; eauto.
  - intros (before & after & -> & HF). exists "multiaddr". enough (entry_infos (before ++ EMalformed :: after) = Panic "multiaddr") as -> by done.
    induction HF as [|e before (a & b & c & ->) HF IH]; [done|]. cbn. by rewrite IH.
Qed.
Print Assumptions C68_crash.

(** One reachable entry peer of two is not enough. *)
Theorem C68_one_suffices_refuted : exists entries x,
  In (EPeer true true true) entries /\ peer_join entries = Err x.
Proof. exists [EPeer true true true; EPeer false false false]. eexists. split; [by left|reflexivity]. Qed.
Print Assumptions C68_one_suffices_refuted.

Example C68_example :
  peer_join [] = Ok tt /\ peer_join [EPeer true true true; EPeer false true true] = Ok tt /\
  peer_join [EPeer true true false] = Err "failed to notify bootstrap peer" /\
  peer_join [EPeer true true true; EMalformed] = Panic "multiaddr" /\ peer_join [ENoPeer; EMalformed] = Err "no peer in multiaddr".
Proof. vm_compute. done. Qed.
