(** Concrete cases for Overlap_model. *)
From Coq Require Import Reals List Arith NArith Lra Lia.
From Verif Require Import Common RSum Mesh_model Region_model Region_spec Overlap_model Overlap_spec Overlap_proofs.
Import ListNotations.
Open Scope R_scope.

(** A diffusion that raises every face by one. *)
Definition raise1 (v : view) (k e : list R) : result (list R) := Ok (repeat 1 (List.length (v_faces v))).
Lemma raise1_ok : forall kappa, one_per_face (fun v => raise1 v kappa).
Proof. intros kappa v e d E. injection E as <-. apply repeat_length. Qed.

Definition s0 : dataset := strip_data [0; 0; 0; 0] [0; 0; 0; 0; 0].
Definition ones : list R := [1; 1; 1; 1].

Lemma loc01_arrays : by_arrays loc01.
Proof. unfold loc01, by_arrays. eauto. Qed.
Lemma ex_overlap : overlap strip (Some loc01) reg123 =
  Ok (Some ([true; false; false], mkView [1]%nat [1; 2]%nat [1; 2]%nat 1)).
Proof. reflexivity. Qed.
Lemma ex_apart : overlap strip (Some loc01) reg23 = Ok None.
Proof. reflexivity. Qed.
Lemma ex_whole_local : overlap strip (Some whole) reg123 = Err ValueError.
Proof. reflexivity. Qed.
Lemma ex_no_edges : overlap strip (Some local0) core2 = Ok None /\ in_faces strip core2 1 /\ in_faces strip local0 1.
Proof. repeat split; cbn; auto. Qed.

Lemma ex_negative : hires_diffusion strip ones raise1 (1 / 2) (Some loc01) reg23 (Scalar (-1)) s0 = (s0, Ok tt) /\
  apply_diffusion strip ones raise1 (1 / 2) (plain strip reg23) (Scalar (-1)) s0 = (s0, Err ValueError).
Proof.
  split; [reflexivity |]. unfold apply_diffusion. cbn [plain v_faces ids h_faces reg23 List.length repeat Nat.eqb negb existsb].
  destruct (Rlt_dec (-1) 0); [reflexivity | lra].
Qed.

Lemma diffusion_one v : v_faces v <> [] -> apply_diffusion strip ones raise1 (1 / 2) v (Scalar 1) s0 = spread strip ones v s0 (repeat 1 (List.length (v_faces v))).
Proof.
  intros H. unfold apply_diffusion, raise1. destruct (v_faces v) as [| f l]; [contradiction |].
  cbn [List.length]. set (n := List.length l). rewrite repeat_length, Nat.eqb_refl. cbn [negb].
  assert (E : existsb (fun x => if Rlt_dec x 0 then true else false) (repeat 1 (S n)) = false).
  { generalize (S n). intros k. induction k as [| k IH]; [reflexivity |]. cbn. destruct (Rlt_dec 1 0); [lra | exact IH]. }
  rewrite E. cbn [repeat]. assert (M : rmax 1 (repeat 1 n) = 1).
  { clear. induction n as [| k IH]; [reflexivity |]. cbn. rewrite Rmax_left by lra. exact IH. }
  rewrite M, Rabs_R1. destruct (Rlt_dec 1 (1 / 2)); [lra | reflexivity].
Qed.

Lemma ex_surface :
  val (fst (surface_diffusion strip ones raise1 (1 / 2) (Scalar 1) s0)) "face_elevation" 3 = 0 + 1 /\
  val (fst (hires_diffusion strip ones raise1 (1 / 2) (Some loc01) whole (Scalar 1) s0)) "face_elevation" 3 = 0 /\
  v_faces (plain strip whole) = v_faces (everything strip).
Proof.
  split; [| split].
  - unfold surface_diffusion. rewrite diffusion_one by discriminate. lazy. reflexivity.
  - destruct (confined strip ones raise1 (fun v _ _ => Ok (repeat 1 (List.length (v_faces v)))) (fun w => repeat 0 (List.length (v_faces w) + List.length (v_nodes w))) (1 / 2) loc01 whole loc01_arrays (Scalar 1) 0 s0) as ((A & _) & _).
    + apply raise1_ok.
    + intros a v e d E. injection E as <-. apply repeat_length.
    + intros w. apply repeat_length.
    + destruct (A 3%nat) as [B _]; [| rewrite B; reflexivity]. intros [_ H]. cbn in H. lia.
  - reflexivity.
Qed.

(** The shared face of [ex_overlap] does move. *)
Lemma ex_moves : val (fst (hires_diffusion strip ones raise1 (1 / 2) (Some loc01) reg123 (Scalar 1) s0)) "face_elevation" 1 = 0 + 1.
Proof. unfold hires_diffusion. rewrite ex_overlap. rewrite diffusion_one by discriminate. lazy. reflexivity. Qed.
