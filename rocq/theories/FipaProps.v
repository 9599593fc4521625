(** Which bytes are read as a FIPA message, and as which: exactly, for all byte strings. *)
From Coq Require Import ZArith NArith List String Ascii Lia.
From stdpp Require Import base tactics list strings.
From Verif Require Import GoBase Bytes Utf8 WireModel WireProofs ProtoModel ProtoProofs SellerModel FormatProps.
Open Scope string_scope.
Open Scope list_scope.
Open Scope Z_scope.

(** * What is read *)

(** The names of the performatives by field number. *)
Definition names : list (Z * string) :=
  [(5, "accept"); (6, "acceptWInform"); (7, "cfp"); (8, "decline"); (9, "end"); (10, "inform"); (11, "matchAccept");
   (12, "matchAcceptWInform"); (13, "propose")].

(** Whether the content of a performative can be read: the information of three of them is a map of texts, the query of a
    cfp and the proposal of a propose a message. *)
Definition readable (n : Z) (b : bytes) : Prop :=
  exists fs, fields_form fs b /\
    (In n [6; 10; 12] -> forall c, In (1, Blob c) fs -> exists gs, fields_form gs c /\ texts_ok [1; 2] gs) /\
    (In n [7; 13] -> forall c, In (1, Blob c) fs -> exists gs, fields_form gs c).

(** * Proofs *)

(** A reader without a result, which only checks. *)
Lemma unit_decode (f : unit -> Z -> wval -> option unit) (ok : Z * fval -> Prop) b :
  plain f -> (forall x, f tt (conv x).1 (conv x).2 = Some tt <-> ok x) ->
  decode_into f tt b = Some tt <-> exists fs, fields_form fs b /\ Forall ok fs.
Proof.
  intros Hp Hok.
  assert (forall fs, fold_fields f tt (map conv fs) = Some tt <-> Forall ok fs) as Hf.
  { induction fs as [|x fs IH]; [split; [constructor|done]|]. rewrite Forall_cons, <- Hok, <- IH. cbn [map fold_fields].
    destruct (conv x) as [n v]. cbn [fst snd]. destruct (f tt n v) as [[]|]; [tauto|]. split; [done|by intros [? _]]. }
  split.
  - intros E. destruct (decode_some _ _ _ _ E) as [fs Hfs]. rewrite (decode_form _ _ fs) in E by done. exists fs. by rewrite <- Hf.
  - intros (fs & Hfs & H). rewrite (decode_form _ _ fs) by done. by apply Hf.
Qed.

Lemma always_decode (f : unit -> Z -> wval -> option unit) b :
  (forall u n v, f u n v = Some tt) -> decode_into f tt b = Some tt <-> exists fs, fields_form fs b.
Proof.
  intros Hf. rewrite (unit_decode f (fun _ => True)).
  - split; intros (fs & H); exists fs; [tauto|]. split; [done|]. by apply Forall_true.
  - intros [] n v _. by rewrite Hf.
  - intros x. rewrite Hf. tauto.
Qed.

(** A check of what is given for some field only. *)
Lemma one_decode (f : unit -> Z -> wval -> option unit) (P : bytes -> Prop) ns b :
  (forall u n v, f u n v = Some tt <-> match v with WBytes c => In n ns -> P c | _ => True end) ->
  decode_into f tt b = Some tt <-> exists fs, fields_form fs b /\ forall n c, In (n, Blob c) fs -> In n ns -> P c.
Proof.
  intros Hf. rewrite (unit_decode f (fun x => match x.2 with Blob c => In x.1 ns -> P c | _ => True end)).
  - split; intros (fs & Hfs & H); exists fs; (split; [done|]); rewrite List.Forall_forall in *.
    + intros n c Hin Hn. exact (H _ Hin Hn).
    + intros [n [z|c]] Hin; [done|]. cbn. by apply H.
  - intros [] n v [-> | [-> | ->] ]; by apply Hf.
  - intros [n [z|c]]; rewrite Hf; done.
Qed.

Lemma none_or (o : option unit) : (o = Some tt <-> False) \/ o = Some tt.
Proof. destruct o as [[]|]; [by right|by left]. Qed.

Lemma entry_decode b : decode_into map_entry_field tt b = Some tt <-> exists fs, fields_form fs b /\ texts_ok [1; 2] fs.
Proof.
  apply (one_decode map_entry_field is_text [1; 2]). intros [] n v. unfold map_entry_field.
  assert (forall c, match text_of c with Some _ => Some tt | None => None end = Some tt <-> is_text c) as Hc.
  { intros c. destruct (text_of c) as [s|] eqn:E.
    - apply text_of_read in E as [H _]. tauto.
    - split; [done|]. intros H. assert (None = Some (string_of c)) by (rewrite <- E; by apply text_of_read). done. }
  destruct (decide (n = 1)) as [->|H1]; [destruct v; rewrite ?Hc; cbn; tauto|].
  destruct (decide (n = 2)) as [->|H2]; [destruct v; rewrite ?Hc; cbn; tauto|].
  assert (match v with WBytes c => In n [1; 2] -> is_text c | _ => True end) as Hr.
  { destruct v; try done. intros Hin. cbn in Hin. lia. }
  split; [done|]. intros _. destruct n as [|p|p]; [by destruct v| |by destruct v]. destruct p as [p|p|]; try lia; [by destruct v|]. destruct p; try lia; by destruct v.
Qed.

Lemma blob_decode b : decode_into one_blob_field tt b = Some tt <->
  exists fs, fields_form fs b /\ forall n c, In (n, Blob c) fs -> In n [1] -> exists gs, fields_form gs c.
Proof.
  apply (one_decode one_blob_field (fun c => exists gs, fields_form gs c) [1]). intros [] n v. unfold one_blob_field.
  destruct (decide (n = 1)) as [->|H1].
  - destruct v; try done. rewrite always_decode by done. cbn. tauto.
  - assert (match v with WBytes c => In n [1] -> exists gs, fields_form gs c | _ => True end) as Hr.
    { destruct v; try done. intros Hin. cbn in Hin. lia. }
    split; [done|]. intros _. destruct n as [|p|p]; [by destruct v| |by destruct v]. destruct p; try lia; by destruct v.
Qed.

Lemma info_decode b : decode_into info_field tt b = Some tt <->
  exists fs, fields_form fs b /\ forall n c, In (n, Blob c) fs -> In n [1] -> exists gs, fields_form gs c /\ texts_ok [1; 2] gs.
Proof.
  apply (one_decode info_field (fun c => exists gs, fields_form gs c /\ texts_ok [1; 2] gs) [1]). intros [] n v. unfold info_field.
  destruct (decide (n = 1)) as [->|H1].
  - destruct v; try done. rewrite entry_decode. cbn. tauto.
  - assert (match v with WBytes c => In n [1] -> exists gs, fields_form gs c /\ texts_ok [1; 2] gs | _ => True end) as Hr.
    { destruct v; try done. intros Hin. cbn in Hin. lia. }
    split; [done|]. intros _. destruct n as [|p|p]; [by destruct v| |by destruct v]. destruct p; try lia; by destruct v.
Qed.

Lemma between_cases n : 5 <= n <= 13 -> n = 5 \/ n = 6 \/ n = 7 \/ n = 8 \/ n = 9 \/ n = 10 \/ n = 11 \/ n = 12 \/ n = 13.
Proof. lia. Qed.

Lemma content_decode n b : 5 <= n <= 13 -> fipa_content n b = Some tt <-> readable n b.
Proof.
  intros Hn.
  assert (forall P : bytes -> Prop, (exists fs, fields_form fs b /\ forall n c, In (n, Blob c) fs -> In n [1] -> P c) <->
    exists fs, fields_form fs b /\ forall c, In (1, Blob c) fs -> P c) as H1.
  { intros P. split; intros (fs & Hf & H); exists fs; (split; [done|]); [intros c Hin; apply (H 1); [done|by left]|].
    intros m c Hin [<-|[]]. by apply H. }
  assert (n = 6 \/ n = 10 \/ n = 12 \/ n = 7 \/ n = 13 \/ n = 5 \/ n = 8 \/ n = 9 \/ n = 11) as Hc by lia. unfold readable, fipa_content.
  destruct Hc as [-> | [-> | [-> | [-> | [-> | [-> | [-> | [-> | ->] ] ] ] ] ] ] ].
  1-3: rewrite info_decode, H1; split; intros (fs & Hf & H); exists fs; (split; [done|]); [split; [by intros _|cbn; lia]|apply H; cbn; tauto].
  1-2: rewrite blob_decode, H1; split; intros (fs & Hf & H); exists fs; (split; [done|]); [split; [cbn; lia|by intros _]|apply H; cbn; tauto].
  all: rewrite always_decode by done; split; intros (fs & H); exists fs; [split; [done|]; split; cbn; lia|tauto].
Qed.

Definition name_of (n : Z) : option string := snd <$> List.find (fun x => x.1 =? n) names.

Lemma name_between n : 5 <= n <= 13 -> fipa_name n = name_of n /\ is_Some (name_of n).
Proof. intros Hn. destruct (between_cases n Hn) as [-> | [-> | [-> | [-> | [-> | [-> | [-> | [-> | ->] ] ] ] ] ] ] ]; split; done || by eexists. Qed.

Lemma name_outside n : n < 5 \/ 13 < n -> fipa_name n = None.
Proof.
  intros Hn. unfold fipa_name. destruct n as [|p|p]; try done. do 4 (destruct p as [p|p|]; try done; try lia).
Qed.

Lemma fipa_other m x : choice 5 13 [x] = [] -> fipa_field m (conv x).1 (conv x).2 = Some m.
Proof.
  destruct x as [n [z|b]]; intros Hc; cbn [conv fst snd]; unfold fipa_field; [by destruct (fipa_name n)|].
  apply choice_none in Hc. by rewrite name_outside.
Qed.

Lemma fipa_plain : plain fipa_field.
Proof. intros m n v [-> | [-> | ->] ]; unfold fipa_field; by destruct (fipa_name n). Qed.

Lemma fipa_fold cs m :
  Forall (fun x => 5 <= x.1 <= 13 /\ exists b, x.2 = Blob b) cs ->
  fold_fields fipa_field None (map conv cs) = Some m <->
  (forall n b, In (n, Blob b) cs -> readable n b) /\ m = last cs ≫= (fun x => name_of x.1).
Proof.
  revert m. induction cs as [|x cs IH] using rev_ind; intros m Hc.
  - cbn. split; [intros [= <-]; by split|by intros [_ ->]].
  - apply Forall_app in Hc as [Hc Hx]. apply Forall_inv in Hx. destruct x as [n v]. cbn [fst snd] in Hx. destruct Hx as (Hn & b & ->).
    rewrite map_app, fold_app, last_snoc. cbn [map conv fst snd fold_fields mbind option_bind].
    destruct (name_between n Hn) as [E [s Es]]. assert (forall m0, fipa_field m0 n (WBytes b) = match fipa_content n b with Some _ => Some (Some s) | None => None end) as Hs
      by (intros m0; unfold fipa_field; by rewrite E, Es).
    rewrite Es. pose proof (content_decode n b Hn) as Hb.
    assert ((forall k c, In (k, Blob c) (cs ++ [(n, Blob b)]) -> readable k c) <-> (forall k c, In (k, Blob c) cs -> readable k c) /\ readable n b) as ->.
    { split.
      - intros H. split; [intros k c Hin; apply H, in_or_app; by left|]. apply H, in_or_app. right. by left.
      - intros [H H'] k c Hin. apply in_app_or in Hin as [Hin|[ [= <- <-] |[] ] ]; [by apply H|done]. }
    destruct (fold_fields fipa_field None (map conv cs)) as [m0|] eqn:E0.
    + destruct (proj1 (IH m0 Hc) eq_refl) as [Hr _]. rewrite Hs. destruct (fipa_content n b) as [[]|].
      * split; [intros [= <-]; split; [split; [done|by apply Hb]|done]|by intros [_ ->]].
      * split; [done|]. intros [[_ H] _]. apply Hb in H. done.
    + split; [done|]. intros [[H _] _]. assert (None = Some (last cs ≫= (fun x => name_of x.1))) by (apply (IH _ Hc); by split). done.
Qed.

(** ** C78 *)

(** A FIPA message is read exactly if its bytes are fields and each performative in it is readable; it has the name of the last one. *)
Theorem C78_read out m :
  decode_fipa out = Some m <->
  exists fs, fields_form fs out /\ (forall n b, In (n, Blob b) fs -> 5 <= n <= 13 -> readable n b) /\
    (m = None /\ choice 5 13 fs = [] \/ exists n b s, last (choice 5 13 fs) = Some (n, Blob b) /\ In (n, s) names /\ m = Some s).
Proof.
  assert (forall fs, (forall n b, In (n, Blob b) (choice 5 13 fs) -> readable n b) <-> (forall n b, In (n, Blob b) fs -> 5 <= n <= 13 -> readable n b)) as Hin.
  { intros fs. split.
    - intros H n b Hb Hn. apply H. apply filter_In. split; [done|]. apply andb_true_iff. by rewrite !Z.leb_le.
    - intros H n b Hb. apply filter_In in Hb as [Hb Hn]. apply andb_true_iff in Hn. rewrite !Z.leb_le in Hn. by apply H. }
  assert (forall fs, m = last (choice 5 13 fs) ≫= (fun x => name_of x.1) <->
    (m = None /\ choice 5 13 fs = [] \/ exists n b s, last (choice 5 13 fs) = Some (n, Blob b) /\ In (n, s) names /\ m = Some s)) as Hm.
  { intros fs. pose proof (choice_forall 5 13 fs) as Hc. destruct (choice 5 13 fs) as [|x cs _] using rev_ind.
    - cbn. split; [intros ->; by left|]. by intros [[-> _]|(n & b & s & ? & _)].
    - apply Forall_app in Hc as [_ Hx]. apply Forall_inv in Hx. destruct x as [n v]. cbn [fst snd] in Hx. destruct Hx as (Hn & b & ->).
      rewrite last_snoc. cbn [mbind option_bind fst].
      assert (forall s, name_of n = Some s <-> In (n, s) names) as Hs.
      { intros s. unfold name_of, names. destruct (between_cases n Hn) as [-> | [-> | [-> | [-> | [-> | [-> | [-> | [-> | ->] ] ] ] ] ] ] ]; cbn; 
          (split; [intros [= <-]; tauto|]); intros H; repeat (destruct H as [H|H]; [injection H; intros; subst; done || lia|]); done. }
      split.
      + intros ->. right. destruct (name_between n Hn) as [_ [s E]]. rewrite E. exists n, b, s. split; [done|]. split; [by apply Hs|done].
      + intros [[_ H]|(n' & b' & s & [= <- <-] & H & ->)]; [by destruct cs|]. symmetry. by apply Hs. }
  unfold decode_fipa. split.
  - intros E. destruct (decode_some _ _ _ _ E) as [fs Hf].
    rewrite (decode_form _ _ fs), (fold_choice _ 5 13) in E by (apply fipa_plain || apply fipa_other || done).
    apply fipa_fold in E as [H1 H2]; [|apply choice_forall]. exists fs. rewrite <- Hin, <- Hm. done.
  - intros (fs & Hf & H1 & H2). pose proof (proj2 (Hin fs) H1) as H3. pose proof (proj2 (Hm fs) H2) as H4.
    rewrite (decode_form _ _ fs), (fold_choice _ 5 13) by (apply fipa_plain || apply fipa_other || done).
    apply fipa_fold; [apply choice_forall|by split].
Qed.
Print Assumptions C78_read.

(** A decline followed by an accept with information, and an unknown field. *)
Definition both : list (Z * fval) := [(8, Blob []); (6, Blob (map z2b [10; 3; 10; 1; 97])); (30, Num 1)].
Example C78_read_example :
  fields_form both (map z2b [66; 0; 50; 5; 10; 3; 10; 1; 97; 240; 1; 1]) /\
  (forall n b, In (n, Blob b) both -> 5 <= n <= 13 -> readable n b) /\
  last (choice 5 13 both) = Some (6, Blob (map z2b [10; 3; 10; 1; 97])) /\
  decode_fipa (map z2b [66; 0; 50; 5; 10; 3; 10; 1; 97; 240; 1; 1]) = Some (Some "acceptWInform") /\
  decode_fipa (map z2b [50; 5; 10; 3; 10; 1; 200]) = None.
Proof.
  split. { apply (fields_form_of both). repeat apply Forall_cons_2; [..|apply Forall_nil_2]; cbn; lia. }
  split; [|by vm_compute].
  intros n b Hin Hn. apply content_decode; [done|]. destruct Hin as [[= <- <-]|[[= <- <-]|[[=]|[]]]]; by vm_compute.
Qed.
