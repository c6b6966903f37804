(** C27, C38, C39, C40: examples of runs of the name server, and refuted claims. *)
From Coq Require Import String.
From Verif Require Import Common CommonFacts ProofFacts Assoc UtilTheorems Base32Model DnsNameModel DnsNameSpec DnsNameFacts DnsMsgModel DnsMsgSpec DnsMsgTotal ReqModel ReqTheorems ResourceModel ResourceTheorems DnssecModel DnssecTheorems AnswerModel AnswerTheorems AnswerTotal CacheModel CacheTheorems HesiodModel HesiodTheorems NsModel NsTable NsTheorems NsRunTheorems.

(** ** Examples *)
Definition toy_server : server := {| v_sec := toy_sec; v_sign := None; v_ip := None; v_names := map txt toy_server_names; v_items := [[1; 0; 7]; [2; 0; 8; 9]; [0; 0]] |}.
Definition toy_time (t : Z) : clock := {| t_get := t; t_make := t; t_old := t; t_new := t |}.
Definition toy_node : node := {| n_hash := repeat 0 32; n_height := 1; n_root := repeat 1 32; n_time := 5; n_synced := true; n_progress := []; n_size := 0; n_peers := [] |}.
Definition home : list Z := repeat 0 15 ++ [1].
Definition away : list Z := repeat 0 10 ++ [255; 255; 8; 8; 8; 8].
(** A datagram with one question *)
Definition datagram (ls : list (list Z)) (type class : Z) : list Z := [1; 2; 1; 0; 0; 1; 0; 0; 0; 0; 0; 0] ++ concat (map (fun l => zlen l :: l) ls) ++ [0] ++ be_bytes 2 type ++ be_bytes 2 class.
Example toy_server_ok : server_ok toy_server /\ sign_ok toy_server /\ table toy_server [(txt "com", [7]); (txt "net", [8; 9]); (txt "org", [])] /\ node_ok toy_node.
Proof.
  split; [split; [exact toy_ok|discriminate]|]. split; [intros f w w' H; discriminate|]. split; [apply (toy_table toy_sec)|].
  unfold node_ok. cbn [toy_node n_hash n_root n_height n_time n_size n_progress n_peers]. change (2 ^ 31) with 2147483648. change (2 ^ 32) with 4294967296. change (2 ^ 64) with 18446744073709551616.
  split; [split; [apply bytes_ok_check; vm_compute; reflexivity|reflexivity]|]. split; [split; [apply bytes_ok_check; vm_compute; reflexivity|reflexivity]|]. split; [lia|]. split; [lia|]. split; [lia|]. split; [split; [constructor|vm_compute; discriminate]|]. split; [vm_compute; discriminate|constructor].
Qed.
(** A run: a query waits for its lookup, the lookup ends, the reply is sent and kept; the
    same query is then answered at once. *)
Example a_run : exists q w w' c, 
  runs toy_server ([], []) (([(Query toy_node true (toy_time 100) away 0 (datagram [txt "a"] 16 1), [Ask (txt "a") q])] ++ [(Result true (toy_time 200) q 0 true [0; 6; 1; 2; 104; 105], [Send w])]) ++ [(Query toy_node true (toy_time 300) away 0 (datagram [txt "A"] 16 1), [Send w'])]) (c, []) /\ zlen c = 1 /\ In 104 w'.
Proof.
  assert (Q1 : exists q, recv toy_server toy_node [] true (toy_time 100) away 0 (datagram [txt "a"] 16 1) = Ok ([], [Ask (txt "a") q]) /\ q_tld q = txt "a" /\ exists c w, after_resolve toy_server [] true (toy_time 200) q (q_tld q) 0 true [0; 6; 1; 2; 104; 105] = Ok (c, [Send w]) /\ zlen c = 1 /\
    exists w', recv toy_server toy_node c true (toy_time 300) away 0 (datagram [txt "A"] 16 1) = Ok (c, [Send w']) /\ In 104 w').
  { eexists. split; [vm_compute; reflexivity|]. split; [reflexivity|]. eexists. eexists. split; [vm_compute; reflexivity|]. split; [reflexivity|]. eexists. split; [vm_compute; reflexivity|]. cbn. tauto. }
  destruct Q1 as (q & E1 & Et & c & w & E2 & Lc & w' & E3 & I). exists q, w, w', c. split; [|auto]. apply run_snoc with (c, []).
  - apply run_snoc with ([], [q]).
    + apply (run_snoc toy_server ([], []) [] ([], [])); [constructor| |].
      * split; [apply toy_server_ok|]. split; [apply bytes_ok_check; vm_compute; reflexivity|]. split; [apply bytes_ok_check; vm_compute; reflexivity|reflexivity].
      * exact (s_query toy_server _ _ _ _ _ _ _ [] _ _ E1).
    + apply bytes_ok_check; vm_compute; reflexivity.
    + exact (s_result toy_server true (toy_time 200) q 0 true _ [] [] [] c _ E2).
  - split; [apply toy_server_ok|]. split; [apply bytes_ok_check; vm_compute; reflexivity|]. split; [apply bytes_ok_check; vm_compute; reflexivity|reflexivity].
  - exact (s_query toy_server _ _ _ _ _ _ _ [] _ _ E3).
Qed.

(** ** Refuted claims *)
(** C39: single datagrams that end the process: "_a.x", a name of 56 characters below
    _synth, 28 digits below _synth, and the NS of the root when no address is set. *)
Theorem query_crash_refuted : exists d1 d2 d3 d4, Forall bytes_ok [d1; d2; d3; d4] /\ Forall (fun d => zlen d <= 100) [d1; d2; d3; d4] /\
  forall n mem rc, let r d := recv toy_server n [] mem (toy_time 100) away rc d in r d1 = Abort /\ r d2 = Ub /\ r d3 = Ub /\ r d4 = Abort.
Proof.
  exists (datagram [txt "_a"; txt "x"] 1 1), (datagram [repeat 97 56; txt "_synth"] 1 1), (datagram [95 :: repeat 97 28; txt "_synth"] 1 1), (datagram [] 2 1).
  split; [repeat (constructor; [apply bytes_ok_check; vm_compute; reflexivity|]); constructor|]. split; [repeat (constructor; [vm_compute; discriminate|]); constructor|]. intros n mem rc. cbv zeta. repeat split; vm_compute; reflexivity.
Qed.
(** Resources of two or three bytes, proved for a name, that end it *)
Theorem result_crash_refuted : exists q raw1 raw2, waits q /\ bytes_ok raw1 /\ bytes_ok raw2 /\ forall c mem, let r raw := after_resolve toy_server c mem (toy_time 100) q (q_tld q) 0 true raw in r raw1 = Abort /\ r raw2 = Ub.
Proof.
  destruct (asks_exact (datagram [txt "a"] 16 1)) as (o & E & _ & X); [apply bytes_ok_check; vm_compute; reflexivity|]. assert (Q : exists q, o = Some q /\ q_type q = 16 /\ q_name q = [97; 46]).
  { assert (Y : exists q, req_create (datagram [txt "a"] 16 1) = Ok (Some q) /\ q_type q = 16 /\ q_name q = [97; 46]) by (eexists; split; [vm_compute; reflexivity|split; reflexivity]). destruct Y as (q & Y & H). rewrite Y in E. apply Ok_inj in E. exists q. split; [congruence|exact H]. }
  destruct Q as (q & -> & Ety & Enm). destruct (X q eq_refl) as [(ls & A) X2]. destruct (X2 ls A) as (P & En & _). exists q, [0; 1], [0; 6; 1]. split.
  - exists (datagram [txt "a"] 16 1), ls. split; [apply bytes_ok_check; vm_compute; reflexivity|]. split; [exact A|]. assert (Els : ls = [[97]]) by (apply dotted_inj; [apply P|repeat constructor; unfold pchar; vm_compute; congruence|rewrite <- En, Enm; reflexivity]). subst ls.
    split; [discriminate|]. split; [intros (a & b & c & Y & _); discriminate|]. cbn. intuition discriminate.
  - split; [apply bytes_ok_check; vm_compute; reflexivity|]. split; [apply bytes_ok_check; vm_compute; reflexivity|]. intros c mem. cbv zeta. unfold after_resolve. change (decode [0; 1]) with (@Ok (option (list record)) (Some [RNs []])). change (decode [0; 6; 1]) with (@Ok (option (list record)) (Some [RTxt [Freed]])).
    change (negb (0 =? 0)) with false. change (negb true || (zlen [0; 1] =? 0)) with false. change (negb true || (zlen [0; 6; 1] =? 0)) with false. cbv iota. cbn [obind]. unfold respond. change (negb (0 =? 0)) with false. cbv iota. rewrite Ety, Enm. split; reflexivity.
Qed.
(** The signed denial for an IPv6 name below _synth denies type AAAA, which exists. *)
Theorem synth_bitmap_refuted : exists a ip, stands a 28 ip /\ forall s now type m, synthesized s now [a; txt "_synth"] type m ->
  (type = 28 -> m_an m = [on_chain (dotted [a; txt "_synth"]) 28 [VBytes ip]]) /\
  (type = 16 -> exists types, no_data s now [nsec (dotted [a; txt "_synth"]) (0 :: zlen types :: types)] (m_ns m) /\ ~ bitmap 0 types 28).
Proof.
  assert (St : stands (95 :: repeat 48 26) 28 (repeat 0 16)).
  { exists (repeat 48 26), (repeat 0 26). split; [reflexivity|]. split; [repeat (constructor; [split; [lia|reflexivity]|]); constructor|]. split; [right; split; [left; reflexivity|]; split; reflexivity|]. split; [apply bytes_ok_check; vm_compute; reflexivity|]. vm_compute. reflexivity. }
  exists (95 :: repeat 48 26), (repeat 0 16). split; [exact St|]. intros s now type m (_ & _ & _ & _ & H). destruct (H _ _ eq_refl) as [_ H2]. destruct (H2 28 _ St) as [H3 H4]. split; [intros E; apply H3; now right|]. intros ->. destruct H4 as (_ & _ & _ & types & N & B); [lia|lia|]. exists types. split; [exact N|]. intros X. apply B in X. cbn in X. repeat (destruct X as [X|X]; [discriminate X|]). exact X.
Qed.
(** C27: a question of class HS gets the answer kept for a question of class IN, also
    from another machine, which otherwise gets no reply. *)
Theorem class_refuted : exists d c w, bytes_ok d /\ cache_ok c /\ (forall n mem rc, recv toy_server n [] mem (toy_time 100) away rc d = Ok ([], [])) /\
  (exists n mem rc q, recv toy_server n [] mem (toy_time 50) away rc (datagram [txt "hnsd"; txt "onion"] 16 1) = Ok (c, q)) /\ forall n mem rc, recv toy_server n c mem (toy_time 100) away rc d = Ok (c, [Send w]).
Proof.
  assert (R : exists c fx, recv toy_server toy_node [] true (toy_time 50) away 0 (datagram [txt "hnsd"; txt "onion"] 16 1) = Ok (c, fx) /\ exists w, forall n mem rc, recv toy_server n c mem (toy_time 100) away rc (datagram [txt "hnsd"; txt "onion"] 16 4) = Ok (c, [Send w])).
  { eexists. eexists. split; [vm_compute; reflexivity|]. eexists. intros n mem rc. vm_compute. reflexivity. }
  destruct R as (c & fx & E & w & H). exists (datagram [txt "hnsd"; txt "onion"] 16 4), c, w. split; [apply bytes_ok_check; vm_compute; reflexivity|]. split; [|split; [intros n mem rc; vm_compute; reflexivity|split; [exists toy_node, true, 0, fx; exact E|exact H]]].
  assert (V := toy_server_ok). destruct (query_done toy_server ltac:(apply V) ltac:(apply V) toy_node true (toy_time 50) away 0 (datagram [txt "hnsd"; txt "onion"] 16 1) [] c fx) as (_ & S & _); [intros k it X; discriminate| |exact E|now apply stored_ok].
  split; [apply V|]. split; [apply bytes_ok_check; vm_compute; reflexivity|]. split; [apply bytes_ok_check; vm_compute; reflexivity|reflexivity].
Qed.
Print Assumptions a_run.
Print Assumptions query_crash_refuted.
Print Assumptions result_crash_refuted.
Print Assumptions synth_bitmap_refuted.
Print Assumptions class_refuted.
