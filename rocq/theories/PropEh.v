(** * C62: extra headers are read and changed at their JSON Pointers *)

From Coq Require Import String.
From Verif Require Import Base BaseLemmas EhModel EhSpec EhProof.
Open Scope list_scope.
Open Scope Z_scope.

(** A query, with or without a value to fill: 0 and the value at the path, 1 if there is none,
    2 if it is not of the type asked for, -1 for a pointer that does not begin with a slash. *)
Theorem C62_get : forall rd h t j ptr value type n, headed h t -> rd t = Some j -> roomy (OGet ptr value type n) ->
  exists rc g st, get_ptr rd h ptr value type n None = Ok (rc, g, st) /\ step rd j (OGet ptr value type n) (rc, g) j.
Proof. exact get_all. Qed.
Print Assumptions C62_get.

(** A change: done if it can be done, with everything beside the path as before, and refused
    with everything as before otherwise; the headers are those written of the document. *)
Theorem C62_set : forall rd wr h t j ptr g, headed h t -> rd t = Some j ->
  exists rc h' j', set_ptr rd wr h ptr g false None = (rc, h', None) /\ step rd j (OSet ptr g) (rc, GNothing) j' /\
    (saved wr h j' h' \/ rc = -1 /\ h' = h /\ j' = j).
Proof. exact set_all. Qed.
Print Assumptions C62_set.

(** Any requests one after the other with a state that is kept: each acts on the document the
    ones before have left; the document of the last is the one written at the end. *)
Theorem C62_session : forall rd wr h t j os, headed h t -> rd t = Some j -> Forall roomy os ->
  exists rs st j' rc h', session rd h os None = Ok (rs, st) /\ steps rd j os rs j' /\ serialize wr h st = (rc, h') /\
    (saved wr h j' h' \/ rc = 0 /\ h' = h /\ j' = j).
Proof. exact session_all. Qed.
Print Assumptions C62_session.

(** A record without extra headers: nothing is found, and a value set makes the objects its
    path needs. *)
Theorem C62_empty : forall rd h ptr value type n st, e_length h = 0 -> get_ptr rd h ptr value type n st = Ok (1, GNothing, st).
Proof. exact get_empty. Qed.
Print Assumptions C62_empty.
Theorem C62_new : forall rd wr h ks g v, e_length h = 0 -> ks <> [] -> plain g v ->
  exists j h', set_ptr rd wr h (written ks) g false None = (0, h', None) /\ changed (JObj []) ks v j /\ saved wr h j h'.
Proof. exact set_new. Qed.
Print Assumptions C62_new.

(** A value set is found again, if the text of the document is not longer than 65535 bytes and
    is read as the document it was written of. *)
Theorem C62_again : forall rd wr h ks g v, ks <> [] -> plain g v ->
  (exists t j, headed h t /\ rd t = Some j /\ settable j ks) \/ e_length h = 0 ->
  exists h' j', set_ptr rd wr h (written ks) g false None = (0, h', None) /\ at_path j' ks v /\ saved wr h j' h' /\
    forall t', wr j' = Some t' -> t' <> [] -> Z.of_nat (List.length t') <= 65535 -> rd t' = Some j' ->
    forall value type n, roomy (OGet (written ks) value type n) ->
      exists rc a st, get_ptr rd h' (written ks) value type n None = Ok (rc, a, st) /\ answer v value type n (rc, a).
Proof. exact found_again. Qed.
Print Assumptions C62_again.

(** A merge patch is applied as RFC 7386 has it. *)
Theorem C62_merge : forall p o, distinct p -> merges o p (merge_patch p o).
Proof. exact (fun p o => merge_ok p o). Qed.
Print Assumptions C62_merge.

(** An entry has the members its structure has values for and is appended to the array of its
    kind, or to the one at the pointer given. *)
Theorem C62_entry : forall rd wr h t j ptr e, headed h t -> rd t = Some j -> ready e ->
  exists v rc h' j', entry_says e v /\ add_entry rd wr h ptr e false None = Ok (rc, h', None) /\
    step rd j (OSet (match ptr with Some p => p | None => written (place_of e) end) (SetAppend v)) (rc, GNothing) j' /\
    (saved wr h j' h' \/ rc = -1 /\ h' = h /\ j' = j).
Proof. exact add_all. Qed.
Print Assumptions C62_entry.

(** All headers replaced by a text, or removed. *)
Theorem C62_replace : forall rd wr h text, match text with
  | None => replace rd wr h text = (0, mk_heads None 0)
  | Some t => match rd t with
              | Some j => exists rc h', replace rd wr h text = (rc, h') /\ saved wr h j h' /\ (rc = -1 \/ rc = e_length h')
              | None => replace rd wr h text = (-1, h)
              end
  end.
Proof. exact replace_all. Qed.
Print Assumptions C62_replace.

(** ** Instances *)

(** A writer of small documents, and a reader of the texts of some. *)
Fixpoint text_of_jv (j : jv) : list Z :=
  match j with
  | JNull => zs "null"
  | JBool b => if b then zs "true" else zs "false"
  | JInt v => [48 + v mod 10]
  | JReal _ => zs "0.5"
  | JStr s => [34] ++ s ++ [34]
  | JArr l => [91] ++ concat (map (fun v => text_of_jv v ++ [44]) l) ++ [93]
  | JObj l => [123] ++ concat (map (fun kv => [34] ++ fst kv ++ [34; 58] ++ text_of_jv (snd kv) ++ [44]) l) ++ [125]
  end.
Definition wr0 (j : jv) : option (list Z) := Some (text_of_jv j).
Definition rd0 (js : list jv) (t : list Z) : option jv := find (fun j => same (text_of_jv j) t) js.

Definition doc0 : jv :=
  JObj [(zs "FDSN", JObj [(zs "Time", JObj [(zs "Quality", JInt 5)]); (zs "Event", JObj [(zs "Detection", JArr [JInt 1])])]);
        (zs "a/b", JArr [JInt 1; JStr (zs "two"); JBool true])].
Definition patch0 : jv := JObj [(zs "Time", JNull); (zs "Event", JObj [(zs "n", JInt 7)])].
Definition heads0 : heads := mk_heads (Some (text_of_jv doc0)) (Z.of_nat (List.length (text_of_jv doc0))).
Lemma headed0 : headed heads0 (text_of_jv doc0).
Proof. split; [reflexivity|]. split; [reflexivity|discriminate]. Qed.

Example C62_get_instance :
  get_ptr (rd0 [doc0]) heads0 (zs "/a~1b/1") (Some (repeat 7 6)) 115 3 None
  = Ok (0, GText (zs "tw" ++ [0; 7; 7; 7]), Some (mk_pstate (Some doc0) None)) /\
  exists rc g st, get_ptr (rd0 [doc0]) heads0 (zs "/a~1b/1") (Some (repeat 7 6)) 115 3 None = Ok (rc, g, st) /\
    step (rd0 [doc0]) doc0 (OGet (zs "/a~1b/1") (Some (repeat 7 6)) 115 3) (rc, g) doc0.
Proof. split; [vm_compute; reflexivity|]. eapply C62_get; [exact headed0|vm_compute; reflexivity|cbn; lia]. Qed.

Example C62_set_instance :
  set_ptr (rd0 [doc0]) wr0 heads0 (zs "/FDSN/Time/Quality") (SetInt 8) false None =
  (0, mk_heads (Some (zs "{""FDSN"":{""Time"":{""Quality"":8,},""Event"":{""Detection"":[1,],},},""a/b"":[1,""two"",true,],}")) 84, None) /\
  exists rc h' j', set_ptr (rd0 [doc0]) wr0 heads0 (zs "/FDSN/Time/Quality") (SetInt 8) false None = (rc, h', None) /\
    step (rd0 [doc0]) doc0 (OSet (zs "/FDSN/Time/Quality") (SetInt 8)) (rc, GNothing) j' /\
    (saved wr0 heads0 j' h' \/ rc = -1 /\ h' = heads0 /\ j' = doc0).
Proof. split; [vm_compute; reflexivity|]. eapply C62_set; [exact headed0|vm_compute; reflexivity]. Qed.

(** Set, query, patch, query, add, refused set. *)
Definition ops0 : list op :=
  [ OSet (zs "/FDSN/Time/Quality") (SetInt 9); OGet (zs "/FDSN/Time/Quality") (Some []) 105 0;
    OSet (zs "/FDSN") (SetPatch (text_of_jv patch0)); OGet (zs "/FDSN/Time/Quality") (Some []) 105 0;
    OGet (zs "/FDSN/Event/n") None 0 0; OSet (zs "/a~1b") (SetAppend JNull); OSet (zs "/a~1b/4") (SetBool 1);
    OGet (zs "/a~1b/2") (Some []) 105 0 ].
Example C62_session_instance :
  (let! (rs, st) := session (rd0 [doc0; patch0]) heads0 ops0 None in
   Ok (map fst rs, e_text (snd (serialize wr0 heads0 st)))) =
  Ok ([0; 0; 0; 1; 0; 0; -1; 2],
      Some (zs "{""FDSN"":{""Event"":{""Detection"":[1,],""n"":7,},},""a/b"":[1,""two"",true,null,],}")) /\
  exists rs st j' rc h', session (rd0 [doc0; patch0]) heads0 ops0 None = Ok (rs, st) /\ steps (rd0 [doc0; patch0]) doc0 ops0 rs j' /\
    serialize wr0 heads0 st = (rc, h') /\ (saved wr0 heads0 j' h' \/ rc = 0 /\ h' = heads0 /\ j' = doc0).
Proof.
  split; [vm_compute; reflexivity|]. eapply C62_session; [exact headed0|vm_compute; reflexivity|].
  repeat constructor; cbn; lia.
Qed.

Definition none0 : heads := mk_heads None 0.
Example C62_empty_instance : get_ptr (rd0 []) none0 (zs "/FDSN") None 0 0 None = Ok (1, GNothing, None).
Proof. apply C62_empty. reflexivity. Qed.
Example C62_new_instance :
  set_ptr (rd0 []) wr0 none0 (zs "/FDSN/Clock/Model") (SetText (zs "X")) false None =
  (0, mk_heads (Some (zs "{""FDSN"":{""Clock"":{""Model"":""X"",},},}")) 35, None) /\
  exists j h', set_ptr (rd0 []) wr0 none0 (written [zs "FDSN"; zs "Clock"; zs "Model"]) (SetText (zs "X")) false None = (0, h', None) /\
    changed (JObj []) [zs "FDSN"; zs "Clock"; zs "Model"] (JStr (zs "X")) j /\ saved wr0 none0 j h'.
Proof. split; [vm_compute; reflexivity|]. apply C62_new; [reflexivity|discriminate|constructor]. Qed.

Definition doc1 : jv := JObj [(zs "FDSN", JObj [(zs "Clock", JObj [(zs "Model", JStr (zs "X"))])])].
Example C62_again_instance :
  exists h', set_ptr (rd0 [doc1]) wr0 none0 (zs "/FDSN/Clock/Model") (SetText (zs "X")) false None = (0, h', None) /\
  get_ptr (rd0 [doc1]) h' (zs "/FDSN/Clock/Model") (Some (repeat 7 4)) 115 4 None =
  Ok (0, GText [88; 0; 0; 0], Some (mk_pstate (Some doc1) None)) /\
  exists h' j', set_ptr (rd0 [doc1]) wr0 none0 (written [zs "FDSN"; zs "Clock"; zs "Model"]) (SetText (zs "X")) false None = (0, h', None) /\
    at_path j' [zs "FDSN"; zs "Clock"; zs "Model"] (JStr (zs "X")) /\ saved wr0 none0 j' h'.
Proof.
  eexists. split; [vm_compute; reflexivity|]. split; [vm_compute; reflexivity|].
  destruct (C62_again (rd0 [doc1]) wr0 none0 [zs "FDSN"; zs "Clock"; zs "Model"] (SetText (zs "X")) (JStr (zs "X"))) as (h' & j' & A & B & C & _).
  - discriminate.
  - constructor.
  - right. reflexivity.
  - exists h', j'. auto.
Qed.
Example C62_merge_instance :
  merge_patch patch0 (member (match doc0 with JObj l => l | _ => [] end) (zs "FDSN")) =
  JObj [(zs "Event", JObj [(zs "Detection", JArr [JInt 1]); (zs "n", JInt 7)])] /\ distinct patch0 /\
  merges (Some doc0) patch0 (merge_patch patch0 (Some doc0)).
Proof.
  assert (D : distinct patch0).
  { unfold patch0. apply d_obj.
    - repeat constructor; cbn; intuition discriminate.
    - intros k v [E|[E|[]]]; inversion E; subst.
      + apply d_plain; [intros (l & X); discriminate X|discriminate].
      + apply d_obj; [repeat constructor; cbn; tauto|]. intros k v [X|[]]; inversion X; subst.
        apply d_plain; [intros (l & Y); discriminate Y|discriminate]. }
  split; [reflexivity|]. split; [exact D|apply C62_merge; exact D].
Qed.

Definition exc0 : entry :=
  Exception (mk_exception 1709164800000000000 0x4049000000000000 100 0 (zs "UNEXPECTED" ++ [0; 0]) [0; 0]).
Lemma exc0_ready : ready exc0.
Proof.
  split; [|split].
  - apply Forall_forall. intros m [<-|[<-|[]]]; vm_compute; tauto.
  - constructor.
  - constructor; [|constructor]. right. right. eexists. vm_compute. reflexivity.
Qed.
Example C62_entry_instance :
  entry_value exc0 = Ok (JObj [(zs "Time", JStr (zs "2024-02-29T00:00:00Z")); (zs "VCOCorrection", JReal 0x4049000000000000);
                               (zs "ReceptionQuality", JInt 100); (zs "Type", JStr (zs "UNEXPECTED"))]) /\
  exists v rc h' j', entry_says exc0 v /\ add_entry (rd0 [doc0]) wr0 heads0 None exc0 false None = Ok (rc, h', None) /\
    step (rd0 [doc0]) doc0 (OSet (written (place_of exc0)) (SetAppend v)) (rc, GNothing) j' /\
    (saved wr0 heads0 j' h' \/ rc = -1 /\ h' = heads0 /\ j' = doc0).
Proof.
  split; [vm_compute; reflexivity|]. eapply (C62_entry _ _ _ _ _ None); [exact headed0|vm_compute; reflexivity|exact exc0_ready].
Qed.
Example C62_replace_instance : replace (rd0 [doc0]) wr0 none0 (Some (text_of_jv doc0)) = (84, heads0).
Proof. vm_compute. reflexivity. Qed.

(** ** What does not hold *)

(** An integer asked for as type i is not the one of the document if that has more than 32
    bits: unsafe_yyjson_get_int returns a C int. *)
Theorem C62_int_refuted : exists rd h t j i x st, headed h t /\ rd t = Some j /\ in_s 64 i /\
  at_path j [zs "n"] (JInt i) /\ get_ptr rd h (zs "/n") (Some []) 105 0 None = Ok (0, GInt x, st) /\ x <> i.
Proof.
  exists (fun _ => Some (JObj [(zs "n", JInt (2 ^ 32 + 5))])), (mk_heads (Some [123]) 1), [123], (JObj [(zs "n", JInt (2 ^ 32 + 5))]),
    (2 ^ 32 + 5), 5, (Some (mk_pstate (Some (JObj [(zs "n", JInt (2 ^ 32 + 5))])) None)).
  split; [repeat split; discriminate|]. split; [reflexivity|]. split; [unfold in_s; lia|]. split.
  - eapply at_member; [|constructor]. exists [], []. split; [reflexivity|cbn; tauto].
  - split; [vm_compute; reflexivity|discriminate].
Qed.
Print Assumptions C62_int_refuted.

(** A change whose document cannot be written, or not in 65535 bytes, is reported as done
    although the headers are as before. *)
Theorem C62_silent_refuted : exists rd wr h t j j', headed h t /\ rd t = Some j /\
  set_ptr rd wr h (zs "/a") (SetInt 1) false None = (0, h, None) /\ at_path j' [zs "a"] (JInt 1) /\
  (forall v, ~ at_path j [zs "a"] v) /\ exists t', wr j' = Some t' /\ 65535 < Z.of_nat (List.length t').
Proof.
  destruct long_text as (big & L).
  exists (fun _ => Some (JObj [])), (fun _ => Some big), (mk_heads (Some [123; 125]) 2), [123; 125], (JObj []),
    (JObj [(zs "a", JInt 1)]).
  split; [repeat split; discriminate|]. split; [reflexivity|]. split.
  - exact (too_long big L).
  - split; [|split].
    + eapply at_member; [|constructor]. exists [], []. split; [reflexivity|cbn; tauto].
    + intros v A. inversion A; subst. match goal with U : first_member [] _ _ |- _ => destruct U as (a & b & U & _) end. destruct a; discriminate.
    + exists big. auto.
Qed.
Print Assumptions C62_silent_refuted.

(** With a state that is kept, a value set for a record without extra headers is not found by a
    query with the same state. *)
Theorem C62_state_refuted : exists rd h rc1 rc2 st, e_length h = 0 /\
  session rd h [OSet (zs "/a") (SetInt 1); OGet (zs "/a") None 0 0] None = Ok ([(rc1, GNothing); (rc2, GNothing)], Some st) /\
  rc1 = 0 /\ p_mut st = Some (Some (JObj [(zs "a", JInt 1)])) /\ rc2 = 1.
Proof.
  exists (fun _ => None), none0, 0, 1, (mk_pstate None (Some (Some (JObj [(zs "a", JInt 1)])))).
  split; [reflexivity|]. split; [vm_compute; reflexivity|]. auto.
Qed.
Print Assumptions C62_state_refuted.

(** A text asked for with a size of 0 is written beyond any memory: the size less one is
    4294967295. *)
Theorem C62_zero_refuted : forall mem, Z.of_nat (List.length mem) < 2 ^ 32 -> exists rd h t j, headed h t /\ rd t = Some j /\
  get_ptr rd h (zs "/a") (Some mem) 115 0 None = UB OOBWrite.
Proof.
  intros mem L. exists (fun _ => Some (JObj [(zs "a", JStr [])])), (mk_heads (Some [123]) 1), [123], (JObj [(zs "a", JStr [])]).
  split; [repeat split; discriminate|]. split; [reflexivity|]. exact (zero_size mem L).
Qed.
Print Assumptions C62_zero_refuted.
