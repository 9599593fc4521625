(** Properties of the text forms of dialogue labels (C19, C20). *)
From Coq Require Import ZArith NArith List String Ascii Lia Permutation.
From stdpp Require Import base tactics gmap list strings.
From Verif Require Import GoBase Bytes Utf8 DialogueModel LabelModel LabelProofs.
Open Scope string_scope.
Open Scope list_scope.
Open Scope Z_scope.

Definition label_parts (l : dlabel) : list string :=
  [starter_ref (lb_ref l); responder_ref (lb_ref l); lb_opponent l; lb_starter l].

(** The character occurs in the text. *)
Definition contains (s : string) (c : ascii) : Prop := In c (list_ascii_of_string s).

(** ** C19 *)

Theorem C19_string_form l :
  ((forall p, In p (label_parts l) -> ~ contains p "_") ->
     label_from_string (label_string l) = Ok l) /\
  ((exists p, In p (label_parts l) /\ contains p "_") ->
     is_err (label_from_string (label_string l)) = true).
Proof.
  split.
  - intros H. rewrite from_string_spec. rewrite bool_decide_true; [done|].
    rewrite !count_zero. repeat split; apply H; simpl; tauto.
  - intros (p & Hp & Hc). rewrite from_string_spec. rewrite bool_decide_false; [done|].
    rewrite !count_zero. intros (H1 & H2 & H3 & H4). simpl in Hp.
    destruct Hp as [<-|[<-|[<-|[<-|[]]]]]; contradiction.
Qed.
Print Assumptions C19_string_form.

(** Whatever parses is the string form of the label read. *)
Theorem C19_parse_exact s l :
  label_from_string s = Ok l -> label_string l = s.
Proof. exact (from_string_inv s l). Qed.
Print Assumptions C19_parse_exact.

Example C19_example :
  label_string (DLabel (DRef "ab" "") "bob" "alice") = "ab__bob_alice" /\
  label_from_string "ab__bob_alice" = Ok (DLabel (DRef "ab" "") "bob" "alice") /\
  label_string (DLabel (DRef "ab" "c") "bob_1" "alice") = "ab_c_bob_1_alice" /\
  is_err (label_from_string "ab_c_bob_1_alice") = true.
Proof. vm_compute. done. Qed.

(** ** C20 *)

(** Text that a JSON string can hold without escaping. *)
Definition json_plain (s : string) : Prop :=
  valid_text s = true /\ forall c, contains s c -> 32 <= b2z c.

Definition no_quoting (s : string) : Prop :=
  ~ contains s (ascii_of_N 34) /\ ~ contains s (ascii_of_N 92).

(** [members] is the order in which the runtime enumerates the map. *)
Theorem C20_json_form l members :
  Permutation members
    [("dialogue_starter_reference", starter_ref (lb_ref l));
     ("dialogue_responder_reference", responder_ref (lb_ref l));
     ("dialogue_opponent_addr", lb_opponent l);
     ("dialogue_starter_addr", lb_starter l)] ->
  (forall p, In p (label_parts l) -> no_quoting p) ->
  (unmarshal_label (marshal_members members) = Ok l <->
   forall p, In p (label_parts l) -> json_plain p).
Proof.
  intros Hp Hq.
  rewrite (json_permuted members l Hp).
  2: { intros p Hin. apply Hq. by apply elem_of_list_In. }
  assert (forall s, decoded s = Some s <-> json_plain s) as Hd.
  { intros s. rewrite decoded_same. unfold json_plain, contains.
    rewrite forallb_forall. split; (intros [H1 H2]; split; [done|]; intros c Hc; apply Z.leb_le; by apply H2). }
  split.
  - intros H p Hin. apply Hd. destruct l as [[a b] c d]. cbn in *.
    destruct (decoded a) eqn:E1; [|done]. destruct (decoded b) eqn:E2; [|done].
    destruct (decoded c) eqn:E3; [|done]. destruct (decoded d) eqn:E4; [|done].
    injection H as -> -> -> ->. destruct Hin as [<-|[<-|[<-|[<-|[]]]]]; done.
  - intros H. destruct l as [[a b] c d]. cbn in *.
    rewrite (proj2 (Hd a)) by (apply H; tauto). rewrite (proj2 (Hd b)) by (apply H; tauto).
    rewrite (proj2 (Hd c)) by (apply H; tauto). rewrite (proj2 (Hd d)) by (apply H; tauto). done.
Qed.
Print Assumptions C20_json_form.

(** A quote in an address: the text does not decode, or decodes to the label of
    someone else. *)
Theorem C20_quote_refuted :
  (exists l, forall members, members = label_members l ->
     is_err (unmarshal_label (marshal_members members)) = true) /\
  (exists l l', l <> l' /\
     unmarshal_label (marshal_members (label_members l)) = Ok l').
Proof.
  split.
  - exists (DLabel (DRef "r" "") (String quote "") "alice"). intros ? ->. vm_compute. done.
  - exists (DLabel (DRef "r" "") "bob"
              ("alice" ++ String quote "," ++ String quote "dialogue_opponent_addr" ++
               String quote ":" ++ String quote "mallory")%string).
    eexists. split; [|vm_compute; reflexivity]. vm_compute. done.
Qed.
Print Assumptions C20_quote_refuted.

Example C20_example :
  let l := DLabel (DRef "ab" "cd") "bob" "alice" in
  (forall p, In p (label_parts l) -> no_quoting p) /\
  (forall p, In p (label_parts l) -> json_plain p) /\
  marshal_members (rev (label_members l)) =
    map (fun c => if Ascii.eqb c "'" then ascii_of_N 34 else c) (bytes_of
    "{'dialogue_starter_addr': 'alice','dialogue_opponent_addr': 'bob','dialogue_responder_reference': 'cd','dialogue_starter_reference': 'ab'}") /\
  unmarshal_label (marshal_members (rev (label_members l))) = Ok l.
Proof.
  cbv zeta. split; [|split; [|split]].
  - intros p Hp. cbn in Hp.
    destruct Hp as [<-|[<-|[<-|[<-|[]]]]]; split; vm_compute; intuition congruence.
  - intros p Hp. cbn in Hp.
    destruct Hp as [<-|[<-|[<-|[<-|[]]]]]; (split; [vm_compute; done|]);
      intros c Hc; cbn in Hc; intuition (subst; vm_compute; done).
  - vm_compute. reflexivity.
  - vm_compute. reflexivity.
Qed.
