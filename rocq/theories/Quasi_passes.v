(** The passes of the sequence extents for exact numbers 1, 18, 17. *)
From Coq Require Import Reals ZArith Lra.
From Verif Require Import Common Quasi_model Quasi_order.
Open Scope R_scope.

Ltac decide_all := repeat match goal with
  | |- context [Rle_dec ?a ?b] => let H := fresh in destruct (Rle_dec a b) as [H|H]; [try (exfalso; lra)|try (exfalso; lra)]
  | |- context [Rlt_dec ?a ?b] => let H := fresh in destruct (Rlt_dec a b) as [H|H]; [try (exfalso; lra)|try (exfalso; lra)]
  | |- context [Req_EM_T ?a ?b] => let H := fresh in destruct (Req_EM_T a b) as [H|H]; [try (exfalso; lra)|try (exfalso; lra)]
  end.
Ltac parts := repeat match goal with |- (_ :: _) = (_ :: _) => f_equal | |- (_, _) = (_, _) => f_equal end.
Ltac pass_split := cbn [split_pass]; unfold Rltb, Rmax; decide_all; parts; lra.
Ltac pass_join := cbn [join_pass]; decide_all; cbn [app]; parts; lra.
Ltac pass_dec := cbn [map fst snd decreasing]; unfold Rleb; decide_all; reflexivity.
Lemma w_split_0 : split_pass None [((1), (0)); ((18), (0)); ((17), (0))] = [((1), (19 / 2)); ((19 / 2), (35 / 2)); ((17), (35 / 2))].
Proof. pass_split. Qed.
Lemma w_join_0 : join_pass None None [((1), (19 / 2)); ((19 / 2), (35 / 2)); ((17), (35 / 2))] = [((37 / 4), (19 / 2)); ((27 / 2), (37 / 4)); ((17), (27 / 2))].
Proof. pass_join. Qed.
Lemma w_mid_0 : map (fun e => ((fst e + snd e) / 2, (snd e - fst e) / 2)) [((37 / 4), (19 / 2)); ((27 / 2), (37 / 4)); ((17), (27 / 2))] = [((75 / 8), (1 / 8)); ((91 / 8), (-17 / 8)); ((61 / 4), (-7 / 4))].
Proof. cbn [map fst snd]. parts; lra. Qed.
Lemma w_dec_0 : (decreasing (map fst [((37 / 4), (19 / 2)); ((27 / 2), (37 / 4)); ((17), (27 / 2))]) && decreasing (map snd [((37 / 4), (19 / 2)); ((27 / 2), (37 / 4)); ((17), (27 / 2))]))%bool = false.
Proof. pass_dec. Qed.
Lemma w_split_1 : split_pass None [((75 / 8), (1 / 8)); ((91 / 8), (-17 / 8)); ((61 / 4), (-7 / 4))] = [((37 / 4), (19 / 2)); ((37 / 4), (27 / 2)); ((27 / 2), (17))].
Proof. pass_split. Qed.
Lemma w_join_1 : join_pass None None [((37 / 4), (19 / 2)); ((37 / 4), (27 / 2)); ((27 / 2), (17))] = [((91 / 8), (19 / 2)); ((105 / 8), (91 / 8)); ((27 / 2), (105 / 8))].
Proof. pass_join. Qed.
Lemma w_mid_1 : map (fun e => ((fst e + snd e) / 2, (snd e - fst e) / 2)) [((91 / 8), (19 / 2)); ((105 / 8), (91 / 8)); ((27 / 2), (105 / 8))] = [((167 / 16), (-15 / 16)); ((49 / 4), (-7 / 8)); ((213 / 16), (-3 / 16))].
Proof. cbn [map fst snd]. parts; lra. Qed.
Lemma w_dec_1 : (decreasing (map fst [((91 / 8), (19 / 2)); ((105 / 8), (91 / 8)); ((27 / 2), (105 / 8))]) && decreasing (map snd [((91 / 8), (19 / 2)); ((105 / 8), (91 / 8)); ((27 / 2), (105 / 8))]))%bool = false.
Proof. pass_dec. Qed.
Lemma w_split_2 : split_pass None [((167 / 16), (-15 / 16)); ((49 / 4), (-7 / 8)); ((213 / 16), (-3 / 16))] = [((19 / 2), (91 / 8)); ((91 / 8), (105 / 8)); ((105 / 8), (27 / 2))].
Proof. pass_split. Qed.
Lemma w_join_2 : join_pass None None [((19 / 2), (91 / 8)); ((91 / 8), (105 / 8)); ((105 / 8), (27 / 2))] = [((181 / 16), (91 / 8)); ((199 / 16), (181 / 16)); ((105 / 8), (199 / 16))].
Proof. pass_join. Qed.
Lemma w_mid_2 : map (fun e => ((fst e + snd e) / 2, (snd e - fst e) / 2)) [((181 / 16), (91 / 8)); ((199 / 16), (181 / 16)); ((105 / 8), (199 / 16))] = [((363 / 32), (1 / 32)); ((95 / 8), (-9 / 16)); ((409 / 32), (-11 / 32))].
Proof. cbn [map fst snd]. parts; lra. Qed.
Lemma w_dec_2 : (decreasing (map fst [((181 / 16), (91 / 8)); ((199 / 16), (181 / 16)); ((105 / 8), (199 / 16))]) && decreasing (map snd [((181 / 16), (91 / 8)); ((199 / 16), (181 / 16)); ((105 / 8), (199 / 16))]))%bool = false.
Proof. pass_dec. Qed.
Lemma w_split_3 : split_pass None [((363 / 32), (1 / 32)); ((95 / 8), (-9 / 16)); ((409 / 32), (-11 / 32))] = [((181 / 16), (91 / 8)); ((181 / 16), (199 / 16)); ((199 / 16), (105 / 8))].
Proof. pass_split. Qed.
Lemma w_join_3 : join_pass None None [((181 / 16), (91 / 8)); ((181 / 16), (199 / 16)); ((199 / 16), (105 / 8))] = [((95 / 8), (91 / 8)); ((391 / 32), (95 / 8)); ((199 / 16), (391 / 32))].
Proof. pass_join. Qed.
Lemma w_mid_3 : map (fun e => ((fst e + snd e) / 2, (snd e - fst e) / 2)) [((95 / 8), (91 / 8)); ((391 / 32), (95 / 8)); ((199 / 16), (391 / 32))] = [((93 / 8), (-1 / 4)); ((771 / 64), (-11 / 64)); ((789 / 64), (-7 / 64))].
Proof. cbn [map fst snd]. parts; lra. Qed.
Lemma w_dec_3 : (decreasing (map fst [((95 / 8), (91 / 8)); ((391 / 32), (95 / 8)); ((199 / 16), (391 / 32))]) && decreasing (map snd [((95 / 8), (91 / 8)); ((391 / 32), (95 / 8)); ((199 / 16), (391 / 32))]))%bool = false.
Proof. pass_dec. Qed.
Lemma w_split_4 : split_pass None [((93 / 8), (-1 / 4)); ((771 / 64), (-11 / 64)); ((789 / 64), (-7 / 64))] = [((91 / 8), (95 / 8)); ((95 / 8), (391 / 32)); ((391 / 32), (199 / 16))].
Proof. pass_split. Qed.
Lemma w_join_4 : join_pass None None [((91 / 8), (95 / 8)); ((95 / 8), (391 / 32)); ((391 / 32), (199 / 16))] = [((755 / 64), (95 / 8)); ((389 / 32), (755 / 64)); ((391 / 32), (389 / 32))].
Proof. pass_join. Qed.
Lemma w_mid_4 : map (fun e => ((fst e + snd e) / 2, (snd e - fst e) / 2)) [((755 / 64), (95 / 8)); ((389 / 32), (755 / 64)); ((391 / 32), (389 / 32))] = [((1515 / 128), (5 / 128)); ((1533 / 128), (-23 / 128)); ((195 / 16), (-1 / 32))].
Proof. cbn [map fst snd]. parts; lra. Qed.
Lemma w_dec_4 : (decreasing (map fst [((755 / 64), (95 / 8)); ((389 / 32), (755 / 64)); ((391 / 32), (389 / 32))]) && decreasing (map snd [((755 / 64), (95 / 8)); ((389 / 32), (755 / 64)); ((391 / 32), (389 / 32))]))%bool = false.
Proof. pass_dec. Qed.
Lemma w_split_5 : split_pass None [((1515 / 128), (5 / 128)); ((1533 / 128), (-23 / 128)); ((195 / 16), (-1 / 32))] = [((755 / 64), (95 / 8)); ((755 / 64), (389 / 32)); ((389 / 32), (391 / 32))].
Proof. pass_split. Qed.
Lemma w_join_5 : join_pass None None [((755 / 64), (95 / 8)); ((755 / 64), (389 / 32)); ((389 / 32), (391 / 32))] = [((1533 / 128), (95 / 8)); ((1537 / 128), (1533 / 128)); ((389 / 32), (1537 / 128))].
Proof. pass_join. Qed.
Lemma w_mid_5 : map (fun e => ((fst e + snd e) / 2, (snd e - fst e) / 2)) [((1533 / 128), (95 / 8)); ((1537 / 128), (1533 / 128)); ((389 / 32), (1537 / 128))] = [((3053 / 256), (-13 / 256)); ((1535 / 128), (-1 / 64)); ((3093 / 256), (-19 / 256))].
Proof. cbn [map fst snd]. parts; lra. Qed.
Lemma w_dec_5 : (decreasing (map fst [((1533 / 128), (95 / 8)); ((1537 / 128), (1533 / 128)); ((389 / 32), (1537 / 128))]) && decreasing (map snd [((1533 / 128), (95 / 8)); ((1537 / 128), (1533 / 128)); ((389 / 32), (1537 / 128))]))%bool = false.
Proof. pass_dec. Qed.
Lemma w_split_6 : split_pass None [((3053 / 256), (-13 / 256)); ((1535 / 128), (-1 / 64)); ((3093 / 256), (-19 / 256))] = [((95 / 8), (1533 / 128)); ((1533 / 128), (1537 / 128)); ((1537 / 128), (389 / 32))].
Proof. pass_split. Qed.
Lemma w_join_6 : join_pass None None [((95 / 8), (1533 / 128)); ((1533 / 128), (1537 / 128)); ((1537 / 128), (389 / 32))] = [((3057 / 256), (1533 / 128)); ((3089 / 256), (3057 / 256)); ((1537 / 128), (3089 / 256))].
Proof. pass_join. Qed.
Lemma w_mid_6 : map (fun e => ((fst e + snd e) / 2, (snd e - fst e) / 2)) [((3057 / 256), (1533 / 128)); ((3089 / 256), (3057 / 256)); ((1537 / 128), (3089 / 256))] = [((6123 / 512), (9 / 512)); ((3073 / 256), (-1 / 16)); ((6163 / 512), (15 / 512))].
Proof. cbn [map fst snd]. parts; lra. Qed.
Lemma w_dec_6 : (decreasing (map fst [((3057 / 256), (1533 / 128)); ((3089 / 256), (3057 / 256)); ((1537 / 128), (3089 / 256))]) && decreasing (map snd [((3057 / 256), (1533 / 128)); ((3089 / 256), (3057 / 256)); ((1537 / 128), (3089 / 256))]))%bool = false.
Proof. pass_dec. Qed.
Lemma w_split_7 : split_pass None [((6123 / 512), (9 / 512)); ((3073 / 256), (-1 / 16)); ((6163 / 512), (15 / 512))] = [((3057 / 256), (1533 / 128)); ((3057 / 256), (3089 / 256)); ((1537 / 128), (3089 / 256))].
Proof. pass_split. Qed.
Lemma w_join_7 : join_pass None None [((3057 / 256), (1533 / 128)); ((3057 / 256), (3089 / 256)); ((1537 / 128), (3089 / 256))] = [((3073 / 256), (1533 / 128)); ((3073 / 256), (3073 / 256)); ((1537 / 128), (3073 / 256))].
Proof. pass_join. Qed.
Lemma w_mid_7 : map (fun e => ((fst e + snd e) / 2, (snd e - fst e) / 2)) [((3073 / 256), (1533 / 128)); ((3073 / 256), (3073 / 256)); ((1537 / 128), (3073 / 256))] = [((6139 / 512), (-7 / 512)); ((3073 / 256), (0)); ((6147 / 512), (-1 / 512))].
Proof. cbn [map fst snd]. parts; lra. Qed.
Lemma w_dec_7 : (decreasing (map fst [((3073 / 256), (1533 / 128)); ((3073 / 256), (3073 / 256)); ((1537 / 128), (3073 / 256))]) && decreasing (map snd [((3073 / 256), (1533 / 128)); ((3073 / 256), (3073 / 256)); ((1537 / 128), (3073 / 256))]))%bool = false.
Proof. pass_dec. Qed.
Lemma w_split_8 : split_pass None [((6139 / 512), (-7 / 512)); ((3073 / 256), (0)); ((6147 / 512), (-1 / 512))] = [((1533 / 128), (3073 / 256)); ((3073 / 256), (3073 / 256)); ((3073 / 256), (1537 / 128))].
Proof. pass_split. Qed.
Lemma w_join_8 : join_pass None None [((1533 / 128), (3073 / 256)); ((3073 / 256), (3073 / 256)); ((3073 / 256), (1537 / 128))] = [((6139 / 512), (3073 / 256)); ((6147 / 512), (6139 / 512)); ((3073 / 256), (6147 / 512))].
Proof. pass_join. Qed.
Lemma w_mid_8 : map (fun e => ((fst e + snd e) / 2, (snd e - fst e) / 2)) [((6139 / 512), (3073 / 256)); ((6147 / 512), (6139 / 512)); ((3073 / 256), (6147 / 512))] = [((12285 / 1024), (7 / 1024)); ((6143 / 512), (-1 / 128)); ((12293 / 1024), (1 / 1024))].
Proof. cbn [map fst snd]. parts; lra. Qed.
Lemma w_dec_8 : (decreasing (map fst [((6139 / 512), (3073 / 256)); ((6147 / 512), (6139 / 512)); ((3073 / 256), (6147 / 512))]) && decreasing (map snd [((6139 / 512), (3073 / 256)); ((6147 / 512), (6139 / 512)); ((3073 / 256), (6147 / 512))]))%bool = false.
Proof. pass_dec. Qed.
Lemma w_split_9 : split_pass None [((12285 / 1024), (7 / 1024)); ((6143 / 512), (-1 / 128)); ((12293 / 1024), (1 / 1024))] = [((6139 / 512), (3073 / 256)); ((6139 / 512), (6147 / 512)); ((3073 / 256), (6147 / 512))].
Proof. pass_split. Qed.
Lemma w_join_9 : join_pass None None [((6139 / 512), (3073 / 256)); ((6139 / 512), (6147 / 512)); ((3073 / 256), (6147 / 512))] = [((6143 / 512), (3073 / 256)); ((6143 / 512), (6143 / 512)); ((3073 / 256), (6143 / 512))].
Proof. pass_join. Qed.
Lemma w_dec_9 : (decreasing (map fst [((6143 / 512), (3073 / 256)); ((6143 / 512), (6143 / 512)); ((3073 / 256), (6143 / 512))]) && decreasing (map snd [((6143 / 512), (3073 / 256)); ((6143 / 512), (6143 / 512)); ((3073 / 256), (6143 / 512))]))%bool = false.
Proof. pass_dec. Qed.
Lemma w_refine ext : refine 10 [((1), (0)); ((18), (0)); ((17), (0))] ext = [((6143 / 512), (3073 / 256)); ((6143 / 512), (6143 / 512)); ((3073 / 256), (6143 / 512))].
Proof.
  rewrite refine_S, w_split_0, w_join_0, w_dec_0, w_mid_0.
  rewrite refine_S, w_split_1, w_join_1, w_dec_1, w_mid_1.
  rewrite refine_S, w_split_2, w_join_2, w_dec_2, w_mid_2.
  rewrite refine_S, w_split_3, w_join_3, w_dec_3, w_mid_3.
  rewrite refine_S, w_split_4, w_join_4, w_dec_4, w_mid_4.
  rewrite refine_S, w_split_5, w_join_5, w_dec_5, w_mid_5.
  rewrite refine_S, w_split_6, w_join_6, w_dec_6, w_mid_6.
  rewrite refine_S, w_split_7, w_join_7, w_dec_7, w_mid_7.
  rewrite refine_S, w_split_8, w_join_8, w_dec_8, w_mid_8.
  rewrite refine_S, w_split_9, w_join_9, w_dec_9.
  reflexivity.
Qed.
