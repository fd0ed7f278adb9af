(** * All public operations compared in two builds *)

From Coq Require Import ZArith List String Bool Lia.
Import ListNotations.
From Verif Require Import M_Prim M_Words Spec Spec_Shift Spec_Convert Spec_Builds Spec_Api P_Builds P_BuildsBase P_Builds1 P_Builds2 P_Builds3 P_Builds4.
Open Scope Z_scope.

Definition goods (Q : cfg -> cfg -> Prop) : list operation -> Prop := Forall (fun p => good_if Q (op_sig p) (op_fn p)).

Lemma api_good : goods all_builds api.
Proof.
  unfold goods, api.
  apply Forall_cons; [exact b0|]. apply Forall_cons; [exact b1|]. apply Forall_cons; [exact b2|]. apply Forall_cons; [exact b3|]. apply Forall_cons; [exact b4|]. apply Forall_cons; [exact b5|]. apply Forall_cons; [exact b6|]. apply Forall_cons; [exact b7|]. apply Forall_cons; [exact b8|]. apply Forall_cons; [exact b9|]. apply Forall_cons; [exact b10|]. apply Forall_cons; [exact b11|].
  apply Forall_cons; [exact b12|]. apply Forall_cons; [exact b13|]. apply Forall_cons; [exact b14|]. apply Forall_cons; [exact b15|]. apply Forall_cons; [exact b16|]. apply Forall_cons; [exact b17|]. apply Forall_cons; [exact b18|]. apply Forall_cons; [exact b19|]. apply Forall_cons; [exact b20|]. apply Forall_cons; [exact b21|]. apply Forall_cons; [exact b22|]. apply Forall_cons; [exact b23|].
  apply Forall_cons; [exact b24|]. apply Forall_cons; [exact b25|]. apply Forall_cons; [exact b26|]. apply Forall_cons; [exact b27|]. apply Forall_cons; [exact b28|]. apply Forall_cons; [exact b29|]. apply Forall_cons; [exact b30|]. apply Forall_cons; [exact b31|]. apply Forall_cons; [exact b32|]. apply Forall_cons; [exact b33|]. apply Forall_cons; [exact b34|]. apply Forall_cons; [exact b35|].
  apply Forall_cons; [exact b36|]. apply Forall_cons; [exact b37|]. apply Forall_cons; [exact b38|]. apply Forall_cons; [exact b39|]. apply Forall_cons; [exact b40|]. apply Forall_cons; [exact b41|]. apply Forall_cons; [exact b42|]. apply Forall_cons; [exact b43|]. apply Forall_cons; [exact b44|]. apply Forall_cons; [exact b45|]. apply Forall_cons; [exact b46|]. apply Forall_cons; [exact b47|].
  apply Forall_cons; [exact b48|]. apply Forall_cons; [exact b49|]. apply Forall_cons; [exact b50|]. apply Forall_cons; [exact b51|]. apply Forall_cons; [exact b52|]. apply Forall_cons; [exact b53|]. apply Forall_cons; [exact b54|]. apply Forall_cons; [exact b55|]. apply Forall_cons; [exact b56|]. apply Forall_cons; [exact b57|]. apply Forall_cons; [exact b58|]. apply Forall_cons; [exact b59|].
  apply Forall_cons; [exact b60|]. apply Forall_cons; [exact b61|]. apply Forall_cons; [exact b62|]. apply Forall_cons; [exact b63|]. apply Forall_cons; [exact b64|]. apply Forall_cons; [exact b65|]. apply Forall_cons; [exact b66|]. apply Forall_cons; [exact b67|]. apply Forall_cons; [exact b68|]. apply Forall_cons; [exact b69|]. apply Forall_cons; [exact b70|]. apply Forall_cons; [exact b71|].
  apply Forall_cons; [exact b72|]. apply Forall_cons; [exact b73|]. apply Forall_cons; [exact b74|]. apply Forall_cons; [exact b75|]. apply Forall_cons; [exact b76|]. apply Forall_cons; [exact b77|]. apply Forall_cons; [exact b78|]. apply Forall_cons; [exact b79|]. apply Forall_cons; [exact b80|]. apply Forall_cons; [exact b81|]. apply Forall_cons; [exact b82|]. apply Forall_cons; [exact b83|].
  apply Forall_cons; [exact b84|]. apply Forall_cons; [exact b85|]. apply Forall_cons; [exact b86|]. apply Forall_cons; [exact b87|]. apply Forall_cons; [exact b88|]. apply Forall_cons; [exact b89|]. apply Forall_cons; [exact b90|]. apply Forall_cons; [exact b91|]. apply Forall_cons; [exact b92|]. apply Forall_cons; [exact b93|]. apply Forall_cons; [exact b94|]. apply Forall_cons; [exact b95|].
  apply Forall_cons; [exact b96|]. apply Forall_cons; [exact b97|]. apply Forall_cons; [exact b98|]. apply Forall_cons; [exact b99|]. apply Forall_cons; [exact b100|]. apply Forall_cons; [exact b101|]. apply Forall_cons; [exact b102|]. apply Forall_cons; [exact b103|]. apply Forall_cons; [exact b104|]. apply Forall_cons; [exact b105|]. apply Forall_cons; [exact b106|]. apply Forall_cons; [exact b107|].
  apply Forall_cons; [exact b108|]. apply Forall_cons; [exact b109|]. apply Forall_cons; [exact b110|]. apply Forall_cons; [exact b111|]. apply Forall_cons; [exact b112|]. apply Forall_cons; [exact b113|]. apply Forall_cons; [exact b114|]. apply Forall_cons; [exact b115|]. apply Forall_cons; [exact b116|]. apply Forall_cons; [exact b117|]. apply Forall_cons; [exact b118|]. apply Forall_cons; [exact b119|].
  apply Forall_cons; [exact b120|]. apply Forall_cons; [exact b121|]. apply Forall_cons; [exact b122|]. apply Forall_cons; [exact b123|]. apply Forall_cons; [exact b124|]. apply Forall_cons; [exact b125|]. apply Forall_cons; [exact b126|]. apply Forall_cons; [exact b127|]. apply Forall_cons; [exact b128|]. apply Forall_cons; [exact b129|]. apply Forall_cons; [exact b130|]. apply Forall_cons; [exact b131|].
  apply Forall_cons; [exact b132|]. apply Forall_cons; [exact b133|]. apply Forall_cons; [exact b134|]. apply Forall_cons; [exact b135|]. apply Forall_cons; [exact b136|]. apply Forall_cons; [exact b137|]. apply Forall_cons; [exact b138|]. apply Forall_cons; [exact b139|]. apply Forall_cons; [exact b140|]. apply Forall_cons; [exact b141|]. apply Forall_cons; [exact b142|]. apply Forall_cons; [exact b143|].
  apply Forall_cons; [exact b144|]. apply Forall_cons; [exact b145|]. apply Forall_cons; [exact b146|]. apply Forall_cons; [exact b147|]. apply Forall_cons; [exact b148|]. apply Forall_cons; [exact b149|]. apply Forall_cons; [exact b150|]. apply Forall_cons; [exact b151|]. apply Forall_cons; [exact b152|]. apply Forall_cons; [exact b153|]. apply Forall_cons; [exact b154|]. apply Forall_cons; [exact b155|].
  apply Forall_cons; [exact b156|]. apply Forall_cons; [exact b157|]. apply Forall_cons; [exact b158|]. apply Forall_cons; [exact b159|]. apply Forall_cons; [exact b160|]. apply Forall_cons; [exact b161|]. apply Forall_cons; [exact b162|]. apply Forall_cons; [exact b163|]. apply Forall_cons; [exact b164|]. apply Forall_cons; [exact b165|]. apply Forall_cons; [exact b166|]. apply Forall_cons; [exact b167|].
  apply Forall_cons; [exact b168|]. apply Forall_cons; [exact b169|]. apply Forall_cons; [exact b170|]. apply Forall_cons; [exact b171|]. apply Forall_cons; [exact b172|]. apply Forall_cons; [exact b173|]. apply Forall_cons; [exact b174|]. apply Forall_cons; [exact b175|]. apply Forall_cons; [exact b176|]. apply Forall_cons; [exact b177|]. apply Forall_cons; [exact b178|]. apply Forall_cons; [exact b179|].
  apply Forall_cons; [exact b180|]. apply Forall_cons; [exact b181|]. apply Forall_cons; [exact b182|]. apply Forall_cons; [exact b183|]. apply Forall_cons; [exact b184|]. apply Forall_cons; [exact b185|]. apply Forall_cons; [exact b186|]. apply Forall_cons; [exact b187|]. apply Forall_cons; [exact b188|]. apply Forall_cons; [exact b189|]. apply Forall_cons; [exact b190|]. apply Forall_cons; [exact b191|].
  apply Forall_cons; [exact b192|]. apply Forall_cons; [exact b193|]. apply Forall_cons; [exact b194|]. apply Forall_cons; [exact b195|]. apply Forall_cons; [exact b196|]. apply Forall_cons; [exact b197|]. apply Forall_cons; [exact b198|]. apply Forall_cons; [exact b199|]. apply Forall_cons; [exact b200|]. apply Forall_cons; [exact b201|]. apply Forall_cons; [exact b202|]. apply Forall_cons; [exact b203|].
  apply Forall_cons; [exact b204|]. apply Forall_cons; [exact b205|]. apply Forall_cons; [exact b206|]. apply Forall_cons; [exact b207|]. apply Forall_cons; [exact b208|]. apply Forall_cons; [exact b209|]. apply Forall_cons; [exact b210|]. apply Forall_cons; [exact b211|]. apply Forall_cons; [exact b212|]. apply Forall_cons; [exact b213|]. apply Forall_cons; [exact b214|]. apply Forall_cons; [exact b215|].
  apply Forall_cons; [exact b216|]. apply Forall_cons; [exact b217|]. apply Forall_cons; [exact b218|]. apply Forall_cons; [exact b219|]. apply Forall_cons; [exact b220|]. apply Forall_cons; [exact b221|]. apply Forall_cons; [exact b222|]. apply Forall_cons; [exact b223|]. apply Forall_cons; [exact b224|]. apply Forall_cons; [exact b225|]. apply Forall_cons; [exact b226|]. apply Forall_cons; [exact b227|].
  apply Forall_cons; [exact b228|]. apply Forall_cons; [exact b229|]. apply Forall_cons; [exact b230|]. apply Forall_cons; [exact b231|]. apply Forall_cons; [exact b232|]. apply Forall_cons; [exact b233|]. apply Forall_cons; [exact b234|]. apply Forall_cons; [exact b235|]. apply Forall_cons; [exact b236|]. apply Forall_cons; [exact b237|]. apply Forall_cons; [exact b238|]. apply Forall_cons; [exact b239|].
  apply Forall_cons; [exact b240|]. apply Forall_cons; [exact b241|]. apply Forall_cons; [exact b242|]. apply Forall_cons; [exact b243|]. apply Forall_cons; [exact b244|]. apply Forall_cons; [exact b245|]. apply Forall_cons; [exact b246|]. apply Forall_cons; [exact b247|]. apply Forall_cons; [exact b248|]. apply Forall_cons; [exact b249|]. apply Forall_cons; [exact b250|]. apply Forall_cons; [exact b251|].
  apply Forall_cons; [exact b252|]. apply Forall_cons; [exact b253|]. apply Forall_cons; [exact b254|]. apply Forall_cons; [exact b255|]. apply Forall_cons; [exact b256|]. apply Forall_cons; [exact b257|]. apply Forall_cons; [exact b258|]. apply Forall_cons; [exact b259|]. apply Forall_cons; [exact b260|]. apply Forall_cons; [exact b261|]. apply Forall_cons; [exact b262|]. apply Forall_cons; [exact b263|].
  apply Forall_cons; [exact b264|]. apply Forall_cons; [exact b265|]. apply Forall_cons; [exact b266|]. apply Forall_cons; [exact b267|]. apply Forall_cons; [exact b268|]. apply Forall_cons; [exact b269|]. apply Forall_cons; [exact b270|]. apply Forall_cons; [exact b271|]. apply Forall_cons; [exact b272|]. apply Forall_cons; [exact b273|]. apply Forall_cons; [exact b274|]. apply Forall_cons; [exact b275|].
  apply Forall_cons; [exact b276|]. apply Forall_cons; [exact b277|]. apply Forall_cons; [exact b278|]. apply Forall_cons; [exact b279|]. apply Forall_cons; [exact b280|]. apply Forall_cons; [exact b281|]. apply Forall_cons; [exact b282|]. apply Forall_cons; [exact b283|]. apply Forall_cons; [exact b284|]. apply Forall_cons; [exact b285|]. apply Forall_cons; [exact b286|]. apply Forall_cons; [exact b287|].
  apply Forall_cons; [exact b288|]. apply Forall_cons; [exact b289|]. apply Forall_cons; [exact b290|]. apply Forall_cons; [exact b291|]. apply Forall_cons; [exact b292|]. apply Forall_cons; [exact b293|]. apply Forall_cons; [exact b294|]. apply Forall_cons; [exact b295|]. apply Forall_cons; [exact b296|]. apply Forall_cons; [exact b297|]. apply Forall_cons; [exact b298|]. apply Forall_cons; [exact b299|].
  apply Forall_cons; [exact b300|]. apply Forall_cons; [exact b301|]. apply Forall_cons; [exact b302|]. apply Forall_cons; [exact b303|]. apply Forall_cons; [exact b304|]. apply Forall_cons; [exact b305|]. apply Forall_cons; [exact b306|]. apply Forall_cons; [exact b307|]. apply Forall_cons; [exact b308|]. apply Forall_cons; [exact b309|]. apply Forall_cons; [exact b310|]. apply Forall_cons; [exact b311|].
  apply Forall_cons; [exact b312|]. apply Forall_cons; [exact b313|]. apply Forall_cons; [exact b314|]. apply Forall_cons; [exact b315|]. apply Forall_cons; [exact b316|]. apply Forall_cons; [exact b317|]. apply Forall_cons; [exact b318|]. apply Forall_cons; [exact b319|]. apply Forall_cons; [exact b320|]. apply Forall_cons; [exact b321|]. apply Forall_cons; [exact b322|]. apply Forall_cons; [exact b323|].
  apply Forall_cons; [exact b324|]. apply Forall_cons; [exact b325|]. apply Forall_cons; [exact b326|]. apply Forall_cons; [exact b327|]. apply Forall_cons; [exact b328|]. apply Forall_cons; [exact b329|]. apply Forall_cons; [exact b330|]. apply Forall_cons; [exact b331|]. apply Forall_cons; [exact b332|]. apply Forall_cons; [exact b333|]. apply Forall_cons; [exact b334|]. apply Forall_cons; [exact b335|].
  apply Forall_cons; [exact b336|]. apply Forall_cons; [exact b337|]. apply Forall_cons; [exact b338|]. apply Forall_cons; [exact b339|]. apply Forall_cons; [exact b340|]. apply Forall_cons; [exact b341|]. apply Forall_cons; [exact b342|]. apply Forall_cons; [exact b343|]. apply Forall_cons; [exact b344|]. apply Forall_cons; [exact b345|]. apply Forall_cons; [exact b346|]. apply Forall_cons; [exact b347|].
  apply Forall_cons; [exact b348|]. apply Forall_cons; [exact b349|]. apply Forall_cons; [exact b350|]. apply Forall_cons; [exact b351|]. apply Forall_cons; [exact b352|]. apply Forall_cons; [exact b353|].
  apply Forall_cons; [exact b354|]. apply Forall_cons; [exact b355|]. apply Forall_cons; [exact b356|]. apply Forall_cons; [exact b357|].
  apply Forall_nil.
Qed.

Lemma api_amounts_good : goods same_llvm api_amounts.
Proof.
  unfold goods, api_amounts.
  apply Forall_cons; [exact w0|]. apply Forall_cons; [exact w1|]. apply Forall_cons; [exact w2|]. apply Forall_cons; [exact w3|]. apply Forall_cons; [exact w4|]. apply Forall_cons; [exact w5|]. apply Forall_cons; [exact w6|]. apply Forall_cons; [exact w7|]. apply Forall_cons; [exact w8|]. apply Forall_cons; [exact w9|]. apply Forall_cons; [exact w10|]. apply Forall_cons; [exact w11|].
  apply Forall_nil.
Qed.

Lemma api_memory_good : goods same_endian api_memory.
Proof.
  unfold goods, api_memory.
  apply Forall_cons; [exact m0|]. apply Forall_cons; [exact m1|]. apply Forall_cons; [exact m2|]. apply Forall_cons; [exact m3|]. apply Forall_cons; [exact m4|]. apply Forall_cons; [exact m5|]. apply Forall_cons; [exact m6|]. apply Forall_cons; [exact m7|]. apply Forall_cons; [exact m8|]. apply Forall_cons; [exact m9|]. apply Forall_cons; [exact m10|]. apply Forall_cons; [exact m11|].
  apply Forall_cons; [exact m12|]. apply Forall_cons; [exact m13|]. apply Forall_cons; [exact m14|]. apply Forall_cons; [exact m15|]. apply Forall_cons; [exact m16|]. apply Forall_cons; [exact m17|].
  apply Forall_nil.
Qed.

Lemma goods_in Q l : goods Q l -> forall (P : operation -> Prop),
  (forall s f, good_if Q s f -> P (Op s f)) -> Forall P l.
Proof. intros G P H. revert G. apply Forall_impl. intros [s f]. apply H. Qed.
Lemma goods_weaken (Q Q' : cfg -> cfg -> Prop) l : (forall c1 c2, Q' c1 c2 -> Q c1 c2) -> goods Q l -> goods Q' l.
Proof. intros I. apply Forall_impl. intros p G c1 c2 CM HQ. apply G; auto. Qed.
Lemma all_good : goods (fun c1 c2 => same_llvm c1 c2 /\ same_endian c1 c2) (api ++ api_amounts ++ api_memory).
Proof.
  unfold goods. rewrite !Forall_app. split; [|split].
  - apply (goods_weaken all_builds); [exact (fun _ _ _ => Logic.I)|exact api_good].
  - apply (goods_weaken same_llvm); [intros c1 c2 []; assumption|exact api_amounts_good].
  - apply (goods_weaken same_endian); [intros c1 c2 []; assumption|exact api_memory_good].
Qed.

Lemma checks_agree c1 c2 : same_target c1 c2 -> usize_ok c1 ->
  Forall (fun p => on_legal agree (@eq) c1 (op_sig p) (op_fn p c1) (op_fn p c2)) (api ++ api_amounts ++ api_memory).
Proof.
  intros (E & S & L) U. apply (goods_in _ _ all_good). intros s f G. cbn [op_sig op_fn].
  refine (good_same_endian _ _ c1 c2 _ s f _ _ G _ _ E).
  - intros A r r' H v w -> ->. exact H.
  - reflexivity.
  - split; assumption.
  - split; assumption.
Qed.
Lemma checks_return c1 c2 : same_target c1 c2 -> checks_of c1 c2 -> usize_ok c1 ->
  Forall (fun p => on_legal returns_too (@eq) c1 (op_sig p) (op_fn p c1) (op_fn p c2)) (api ++ api_amounts ++ api_memory).
Proof.
  intros (E & S & L) (D & O) U. apply (goods_in _ _ all_good). intros s f G. cbn [op_sig op_fn].
  refine (good_same_endian _ _ c1 c2 _ s f _ _ G _ _ E).
  - intros A r r' H v ->. cbn [cmp_outcome] in H. destruct r'; try contradiction; [congruence|].
    exfalso. unfold more_checks in H. destruct H as [[X Y]|[X Y]]; [apply D in X|apply O in X]; congruence.
  - reflexivity.
  - split; assumption.
  - split; assumption.
Qed.
Lemma debug_release c : usize_ok c ->
  Forall (fun p => on_legal returns_too (@eq) (debug_build c) (op_sig p) (op_fn p (debug_build c)) (op_fn p (release_build c)))
    (api ++ api_amounts ++ api_memory).
Proof.
  intros U. apply checks_return; [split; [reflexivity|split; reflexivity]|split; reflexivity|exact U].
Qed.
Lemma no_undefined c : usize_ok c ->
  Forall (fun p => on_legal defined (@eq) c (op_sig p) (op_fn p c) (op_fn p c)) (api ++ api_amounts ++ api_memory).
Proof.
  intros U. apply (goods_in _ _ all_good). intros s f G. cbn [op_sig op_fn].
  apply (good_defined _ s f G c U). split; reflexivity.
Qed.
Lemma endian_same c : usize_ok c ->
  Forall (fun p => in_builds same_outcome (with_endian c false) (with_endian c true) (op_sig p)
                     (op_fn p (with_endian c false)) (op_fn p (with_endian c true))) (api ++ api_amounts).
Proof.
  intros U. rewrite Forall_app. split.
  - apply (goods_in _ _ api_good). intros s f G. apply (good_endian _ s f G c U). exact Logic.I.
  - apply (goods_in _ _ api_amounts_good). intros s f G. apply (good_endian _ s f G c U). reflexivity.
Qed.
Lemma backend_same c : usize_ok c ->
  Forall (fun p => on_legal (fun A => @eq (res A)) (@eq) c (op_sig p) (op_fn p (with_llvm c false)) (op_fn p (with_llvm c true)))
    (api ++ api_memory).
Proof.
  intros U. rewrite Forall_app. split.
  - apply (goods_in _ _ api_good). intros s f G. apply (good_backend _ s f G c U). exact Logic.I.
  - apply (goods_in _ _ api_memory_good). intros s f G. apply (good_backend _ s f G c U). reflexivity.
Qed.
