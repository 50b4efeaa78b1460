(* LabelsFacts.v - lemmas about Labels.v *)
From Verif Require Export BaseFacts Labels.
Local Open Scope N_scope.

(* UTF-8 and labels *)
Lemma utf8_ascii s : Forall (fun c => c < 128) s -> utf8 s = s.
Proof.
  unfold utf8. induction 1 as [|c s Hc Hs IH]; [reflexivity|]. cbn [map concat]. rewrite IH. unfold utf8_char.
  destruct (N.ltb_spec c 128); [reflexivity|lia].
Qed.
Lemma split_dot_nonempty s : split_dot s <> [].
Proof. destruct s as [|c r]; cbn; [discriminate|]. destruct (_ =? 46); [discriminate|]. destruct (split_dot r); discriminate. Qed.
Lemma split_dot_ascii s : Forall (fun c => c < 128) s -> Forall (Forall (fun c => c < 128)) (split_dot s).
Proof.
  induction 1 as [|c s Hc Hs IH]; cbn; [repeat constructor|]. destruct (_ =? 46); [constructor; auto|].
  destruct (split_dot s); [repeat constructor; auto|]. inversion IH; subst. constructor; [constructor; assumption|assumption].
Qed.
(* joining the labels with a dot after each gives the name followed by a dot *)
Lemma split_dot_join s : concat (map (fun w => w ++ [46]) (split_dot s)) = s ++ [46].
Proof.
  induction s as [|c s IH]; [reflexivity|]. cbn [split_dot]. destruct (N.eqb_spec c 46) as [E|E].
  - cbn [map concat app]. rewrite IH. subst. reflexivity.
  - pose proof (split_dot_nonempty s). destruct (split_dot s) as [|w ws]; [contradiction|].
    cbn [map concat app] in *. rewrite <- app_assoc in *. cbn [app] in *. rewrite IH. reflexivity.
Qed.
Lemma labels_loop_encode {E} ws : Forall (fun w => nlen w < 256) ws -> forall f,
  (length (concat (map (fun w => nlen w :: w) ws)) <= f)%nat ->
  @labels_loop E f (concat (map (fun w => nlen w :: w) ws)) = Ok (concat (map (fun w => w ++ [46]) ws)).
Proof.
  induction 1 as [|w ws Hw Hws IH]; intros f Hf; [destruct f; reflexivity|].
  cbn [map concat app] in *. cbn [length] in Hf. rewrite app_length in Hf. destruct f as [|f]; [lia|]. cbn [labels_loop].
  rewrite app_length. unfold nlen at 1. rewrite Nat2N.id.
  destruct (Nat.leb_spec (length w) (length w + length (concat (map (fun w => nlen w :: w) ws)))); [|lia].
  unfold nlen at 1. rewrite Nat2N.id. rewrite skipn_app_exact by reflexivity. rewrite IH by lia. cbn [bind].
  rewrite firstn_app_exact by (unfold nlen; lia). rewrite <- app_assoc. reflexivity.
Qed.
Lemma labels_encode_eq s : name_ok s -> labels_encode s = concat (map (fun w => nlen w :: w) (split_dot s)).
Proof.
  intros [Ha Hl]. unfold labels_encode. apply split_dot_ascii in Ha. induction Ha as [|w ws Hw Hws IH]; [reflexivity|].
  inversion Hl; subst. cbn [map concat]. rewrite IH, utf8_ascii by assumption. rewrite N.mod_small by assumption. reflexivity.
Qed.
Lemma labels_roundtrip {E} s : name_ok s -> @labels_decode E (labels_encode s) = Ok s.
Proof.
  intros H. rewrite labels_encode_eq by assumption. destruct H as [Ha Hl]. unfold labels_decode.
  rewrite labels_loop_encode by (assumption || lia). cbn [bind]. rewrite split_dot_join, removelast_last. reflexivity.
Qed.
Lemma labels_encode_pos s : (1 <= length (labels_encode s))%nat.
Proof.
  unfold labels_encode. pose proof (split_dot_nonempty s). destruct (split_dot s); [contradiction|]. cbn. lia.
Qed.

