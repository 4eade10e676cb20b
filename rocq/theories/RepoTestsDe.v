(** The tests of bsn1_serde/tests/de, run on the model: each declaration is the one of the
    file, and each example what the test of that name (at the line given) asserts. *)
From Coq Require Import String Ascii.
From Verif Require Import Base ModelError ModelIo ModelTag ModelContents ModelBuf ModelTlv ModelSerde ModelAttr ModelDerive.
From Verif Require Import RepoTests.
Local Open Scope string_scope.
Local Open Scope N_scope.
Local Open Scope list_scope.

(** tests/de/unit_struct.rs *)
Definition de_unit_struct_A_T : list Type := [].
Definition de_unit_struct_A_d : data := DStruct de_unit_struct_A_T tt.
Definition de_unit_struct_A_a : list syn_attribute := [].
Definition de_unit_struct_A_p : paths (value de_unit_struct_A_d) := no_paths _.
Definition de_unit_struct_B_T : list Type := [].
Definition de_unit_struct_B_d : data := DStruct de_unit_struct_B_T tt.
Definition de_unit_struct_B_a : list syn_attribute := [None].
Definition de_unit_struct_B_p : paths (value de_unit_struct_B_d) := no_paths _.
Definition de_unit_struct_C_T : list Type := [].
Definition de_unit_struct_C_d : data := DStruct de_unit_struct_C_T tt.
Definition de_unit_struct_C_a : list syn_attribute := [Some [TIdent "id"; TPunct "="; TIdent "Sequence"]].
Definition de_unit_struct_C_p : paths (value de_unit_struct_C_d) := no_paths _.
Definition de_unit_struct_D_T : list Type := [].
Definition de_unit_struct_D_d : data := DStruct de_unit_struct_D_T tt.
Definition de_unit_struct_D_a : list syn_attribute := [Some [TIdent "tag_class"; TPunct "="; TIdent "PRIVATE"]].
Definition de_unit_struct_D_p : paths (value de_unit_struct_D_d) := no_paths _.
Definition de_unit_struct_E_T : list Type := [].
Definition de_unit_struct_E_d : data := DStruct de_unit_struct_E_T tt.
Definition de_unit_struct_E_a : list syn_attribute := [Some [TIdent "id"; TPunct "="; TIdent "Sequence"; TPunct ","; TIdent "tag_class"; TPunct "="; TIdent "PRIVATE"]].
Definition de_unit_struct_E_p : paths (value de_unit_struct_E_d) := no_paths _.
Definition de_unit_struct_F_T : list Type := [].
Definition de_unit_struct_F_d : data := DStruct de_unit_struct_F_T tt.
Definition de_unit_struct_F_a : list syn_attribute := [Some [TIdent "tag_pc"; TPunct "="; TIdent "PRIMITIVE"]].
Definition de_unit_struct_F_p : paths (value de_unit_struct_F_d) := no_paths _.
Definition de_unit_struct_G_T : list Type := [].
Definition de_unit_struct_G_d : data := DStruct de_unit_struct_G_T tt.
Definition de_unit_struct_G_a : list syn_attribute := [Some [TIdent "id"; TPunct "="; TIdent "Sequence"; TPunct ","; TIdent "tag_pc"; TPunct "="; TIdent "PRIMITIVE"]].
Definition de_unit_struct_G_p : paths (value de_unit_struct_G_d) := no_paths _.
Definition de_unit_struct_H_T : list Type := [].
Definition de_unit_struct_H_d : data := DStruct de_unit_struct_H_T tt.
Definition de_unit_struct_H_a : list syn_attribute := [Some [TIdent "tag_class"; TPunct "="; TIdent "PRIVATE"; TPunct ","; TIdent "tag_pc"; TPunct "="; TIdent "PRIMITIVE"]].
Definition de_unit_struct_H_p : paths (value de_unit_struct_H_d) := no_paths _.
Definition de_unit_struct_I_T : list Type := [].
Definition de_unit_struct_I_d : data := DStruct de_unit_struct_I_T tt.
Definition de_unit_struct_I_a : list syn_attribute := [Some [TIdent "id"; TPunct "="; TIdent "Sequence"; TPunct ","; TIdent "tag_class"; TPunct "="; TIdent "PRIVATE"; TPunct ","; TIdent "tag_pc"; TPunct "="; TIdent "PRIMITIVE"]].
Definition de_unit_struct_I_p : paths (value de_unit_struct_I_d) := no_paths _.
Definition de_unit_struct_J_T : list Type := [].
Definition de_unit_struct_J_d : data := DStruct de_unit_struct_J_T tt.
Definition de_unit_struct_J_a : list syn_attribute := [Some [TIdent "tag_num"; TPunct "="; TLiteral "0"]].
Definition de_unit_struct_J_p : paths (value de_unit_struct_J_d) := no_paths _.
Definition de_unit_struct_K_T : list Type := [].
Definition de_unit_struct_K_d : data := DStruct de_unit_struct_K_T tt.
Definition de_unit_struct_K_a : list syn_attribute := [Some [TIdent "id"; TPunct "="; TIdent "Sequence"; TPunct ","; TIdent "tag_num"; TPunct "="; TLiteral "1"]].
Definition de_unit_struct_K_p : paths (value de_unit_struct_K_d) := no_paths _.
Definition de_unit_struct_L_T : list Type := [].
Definition de_unit_struct_L_d : data := DStruct de_unit_struct_L_T tt.
Definition de_unit_struct_L_a : list syn_attribute := [Some [TIdent "tag_class"; TPunct "="; TIdent "PRIVATE"; TPunct ","; TIdent "tag_num"; TPunct "="; TLiteral "0x1e"]].
Definition de_unit_struct_L_p : paths (value de_unit_struct_L_d) := no_paths _.
Definition de_unit_struct_M_T : list Type := [].
Definition de_unit_struct_M_d : data := DStruct de_unit_struct_M_T tt.
Definition de_unit_struct_M_a : list syn_attribute := [Some [TIdent "id"; TPunct "="; TIdent "Sequence"; TPunct ","; TIdent "tag_class"; TPunct "="; TIdent "PRIVATE"; TPunct ","; TIdent "tag_num"; TPunct "="; TLiteral "0x1f"]].
Definition de_unit_struct_M_p : paths (value de_unit_struct_M_d) := no_paths _.
Definition de_unit_struct_N_T : list Type := [].
Definition de_unit_struct_N_d : data := DStruct de_unit_struct_N_T tt.
Definition de_unit_struct_N_a : list syn_attribute := [Some [TIdent "tag_pc"; TPunct "="; TIdent "PRIMITIVE"; TPunct ","; TIdent "tag_num"; TPunct "="; TLiteral "0x7f"]].
Definition de_unit_struct_N_p : paths (value de_unit_struct_N_d) := no_paths _.
Definition de_unit_struct_O_T : list Type := [].
Definition de_unit_struct_O_d : data := DStruct de_unit_struct_O_T tt.
Definition de_unit_struct_O_a : list syn_attribute := [Some [TIdent "id"; TPunct "="; TIdent "Sequence"; TPunct ","; TIdent "tag_pc"; TPunct "="; TIdent "PRIMITIVE"; TPunct ","; TIdent "tag_num"; TPunct "="; TLiteral "0x80"]].
Definition de_unit_struct_O_p : paths (value de_unit_struct_O_d) := no_paths _.
Definition de_unit_struct_P_T : list Type := [].
Definition de_unit_struct_P_d : data := DStruct de_unit_struct_P_T tt.
Definition de_unit_struct_P_a : list syn_attribute := [Some [TIdent "tag_class"; TPunct "="; TIdent "PRIVATE"; TPunct ","; TIdent "tag_pc"; TPunct "="; TIdent "PRIMITIVE"; TPunct ","; TIdent "tag_num"; TPunct "="; TLiteral "0x3fff"]].
Definition de_unit_struct_P_p : paths (value de_unit_struct_P_d) := no_paths _.
Definition de_unit_struct_Q_T : list Type := [].
Definition de_unit_struct_Q_d : data := DStruct de_unit_struct_Q_T tt.
Definition de_unit_struct_Q_a : list syn_attribute := [Some [TIdent "id"; TPunct "="; TIdent "Sequence"; TPunct ","; TIdent "tag_class"; TPunct "="; TIdent "PRIVATE"; TPunct ","; TIdent "tag_pc"; TPunct "="; TIdent "PRIMITIVE"; TPunct ","; TIdent "tag_num"; TPunct "="; TLiteral "0x4000"]].
Definition de_unit_struct_Q_p : paths (value de_unit_struct_Q_d) := no_paths _.
(** line 106 *)
Example de_unit_struct_test_a : test_der_back de_unit_struct_A_a de_unit_struct_A_d de_unit_struct_A_p tt = Some (Ok tt) /\
  test_ber_back de_unit_struct_A_a de_unit_struct_A_d de_unit_struct_A_p tt = Some (Ok tt).
Proof. conforms. Qed.
(** line 116 *)
Example de_unit_struct_test_b : test_der_back de_unit_struct_B_a de_unit_struct_B_d de_unit_struct_B_p tt = Some (Ok tt) /\
  test_ber_back de_unit_struct_B_a de_unit_struct_B_d de_unit_struct_B_p tt = Some (Ok tt).
Proof. conforms. Qed.
(** line 126 *)
Example de_unit_struct_test_c : test_der_back de_unit_struct_C_a de_unit_struct_C_d de_unit_struct_C_p tt = Some (Ok tt) /\
  test_ber_back de_unit_struct_C_a de_unit_struct_C_d de_unit_struct_C_p tt = Some (Ok tt).
Proof. conforms. Qed.
(** line 136 *)
Example de_unit_struct_test_d : test_der_back de_unit_struct_D_a de_unit_struct_D_d de_unit_struct_D_p tt = Some (Ok tt) /\
  test_ber_back de_unit_struct_D_a de_unit_struct_D_d de_unit_struct_D_p tt = Some (Ok tt).
Proof. conforms. Qed.
(** line 146 *)
Example de_unit_struct_test_e : test_der_back de_unit_struct_E_a de_unit_struct_E_d de_unit_struct_E_p tt = Some (Ok tt) /\
  test_ber_back de_unit_struct_E_a de_unit_struct_E_d de_unit_struct_E_p tt = Some (Ok tt).
Proof. conforms. Qed.
(** line 156 *)
Example de_unit_struct_test_f : test_der_back de_unit_struct_F_a de_unit_struct_F_d de_unit_struct_F_p tt = Some (Ok tt) /\
  test_ber_back de_unit_struct_F_a de_unit_struct_F_d de_unit_struct_F_p tt = Some (Ok tt).
Proof. conforms. Qed.
(** line 166 *)
Example de_unit_struct_test_g : test_der_back de_unit_struct_G_a de_unit_struct_G_d de_unit_struct_G_p tt = Some (Ok tt) /\
  test_ber_back de_unit_struct_G_a de_unit_struct_G_d de_unit_struct_G_p tt = Some (Ok tt).
Proof. conforms. Qed.
(** line 176 *)
Example de_unit_struct_test_h : test_der_back de_unit_struct_H_a de_unit_struct_H_d de_unit_struct_H_p tt = Some (Ok tt) /\
  test_ber_back de_unit_struct_H_a de_unit_struct_H_d de_unit_struct_H_p tt = Some (Ok tt).
Proof. conforms. Qed.
(** line 186 *)
Example de_unit_struct_test_i : test_der_back de_unit_struct_I_a de_unit_struct_I_d de_unit_struct_I_p tt = Some (Ok tt) /\
  test_ber_back de_unit_struct_I_a de_unit_struct_I_d de_unit_struct_I_p tt = Some (Ok tt).
Proof. conforms. Qed.
(** line 196 *)
Example de_unit_struct_test_j : test_der_back de_unit_struct_J_a de_unit_struct_J_d de_unit_struct_J_p tt = Some (Ok tt) /\
  test_ber_back de_unit_struct_J_a de_unit_struct_J_d de_unit_struct_J_p tt = Some (Ok tt).
Proof. conforms. Qed.
(** line 206 *)
Example de_unit_struct_test_k : test_der_back de_unit_struct_K_a de_unit_struct_K_d de_unit_struct_K_p tt = Some (Ok tt) /\
  test_ber_back de_unit_struct_K_a de_unit_struct_K_d de_unit_struct_K_p tt = Some (Ok tt).
Proof. conforms. Qed.
(** line 216 *)
Example de_unit_struct_test_l : test_der_back de_unit_struct_L_a de_unit_struct_L_d de_unit_struct_L_p tt = Some (Ok tt) /\
  test_ber_back de_unit_struct_L_a de_unit_struct_L_d de_unit_struct_L_p tt = Some (Ok tt).
Proof. conforms. Qed.
(** line 226 *)
Example de_unit_struct_test_m : test_der_back de_unit_struct_M_a de_unit_struct_M_d de_unit_struct_M_p tt = Some (Ok tt) /\
  test_ber_back de_unit_struct_M_a de_unit_struct_M_d de_unit_struct_M_p tt = Some (Ok tt).
Proof. conforms. Qed.
(** line 236 *)
Example de_unit_struct_test_n : test_der_back de_unit_struct_N_a de_unit_struct_N_d de_unit_struct_N_p tt = Some (Ok tt) /\
  test_ber_back de_unit_struct_N_a de_unit_struct_N_d de_unit_struct_N_p tt = Some (Ok tt).
Proof. conforms. Qed.
(** line 246 *)
Example de_unit_struct_test_o : test_der_back de_unit_struct_O_a de_unit_struct_O_d de_unit_struct_O_p tt = Some (Ok tt) /\
  test_ber_back de_unit_struct_O_a de_unit_struct_O_d de_unit_struct_O_p tt = Some (Ok tt).
Proof. conforms. Qed.
(** line 256 *)
Example de_unit_struct_test_p : test_der_back de_unit_struct_P_a de_unit_struct_P_d de_unit_struct_P_p tt = Some (Ok tt) /\
  test_ber_back de_unit_struct_P_a de_unit_struct_P_d de_unit_struct_P_p tt = Some (Ok tt).
Proof. conforms. Qed.
(** line 266 *)
Example de_unit_struct_test_q : test_der_back de_unit_struct_Q_a de_unit_struct_Q_d de_unit_struct_Q_p tt = Some (Ok tt) /\
  test_ber_back de_unit_struct_Q_a de_unit_struct_Q_d de_unit_struct_Q_p tt = Some (Ok tt).
Proof. conforms. Qed.

(** tests/de/tuple_struct.rs *)
Definition de_tuple_struct_A_T : list Type := [].
Definition de_tuple_struct_A_d : data := DStruct de_tuple_struct_A_T tt.
Definition de_tuple_struct_A_a : list syn_attribute := [].
Definition de_tuple_struct_A_p : paths (value de_tuple_struct_A_d) := no_paths _.
Definition de_tuple_struct_B_T : list Type := [Z : Type; list N : Type].
Definition de_tuple_struct_B_d : data := DStruct de_tuple_struct_B_T (fld [] (int_n I32) 1, (fld [] (string_n) 2, tt)).
Definition de_tuple_struct_B_a : list syn_attribute := [Some []].
Definition de_tuple_struct_B_p : paths (value de_tuple_struct_B_d) := no_paths _.
Definition de_tuple_struct_C_T : list Type := [Z : Type; list N : Type].
Definition de_tuple_struct_C_d : data := DStruct de_tuple_struct_C_T (fld [] (int_n I32) 1, (fld [] (string_n) 2, tt)).
Definition de_tuple_struct_C_a : list syn_attribute := [Some [TIdent "id"; TPunct "="; TIdent "Boolean"]].
Definition de_tuple_struct_C_p : paths (value de_tuple_struct_C_d) := no_paths _.
Definition de_tuple_struct_D_T : list Type := [Z : Type; list N : Type].
Definition de_tuple_struct_D_d : data := DStruct de_tuple_struct_D_T (fld [] (int_n I32) 1, (fld [] (string_n) 2, tt)).
Definition de_tuple_struct_D_a : list syn_attribute := [Some [TIdent "tag_class"; TPunct "="; TIdent "CONTEXT_SPECIFIC"]].
Definition de_tuple_struct_D_p : paths (value de_tuple_struct_D_d) := no_paths _.
Definition de_tuple_struct_E_T : list Type := [Z : Type; list N : Type].
Definition de_tuple_struct_E_d : data := DStruct de_tuple_struct_E_T (fld [] (int_n I32) 1, (fld [] (string_n) 2, tt)).
Definition de_tuple_struct_E_a : list syn_attribute := [Some [TIdent "id"; TPunct "="; TIdent "Boolean"; TPunct ","; TIdent "tag_class"; TPunct "="; TIdent "CONTEXT_SPECIFIC"]].
Definition de_tuple_struct_E_p : paths (value de_tuple_struct_E_d) := no_paths _.
Definition de_tuple_struct_F_T : list Type := [Z : Type; list N : Type].
Definition de_tuple_struct_F_d : data := DStruct de_tuple_struct_F_T (fld [] (int_n I32) 1, (fld [] (string_n) 2, tt)).
Definition de_tuple_struct_F_a : list syn_attribute := [Some [TIdent "tag_pc"; TPunct "="; TIdent "CONSTRUCTED"]].
Definition de_tuple_struct_F_p : paths (value de_tuple_struct_F_d) := no_paths _.
Definition de_tuple_struct_G_T : list Type := [Z : Type; list N : Type].
Definition de_tuple_struct_G_d : data := DStruct de_tuple_struct_G_T (fld [] (int_n I32) 1, (fld [] (string_n) 2, tt)).
Definition de_tuple_struct_G_a : list syn_attribute := [Some [TIdent "id"; TPunct "="; TIdent "Boolean"; TPunct ","; TIdent "tag_pc"; TPunct "="; TIdent "CONSTRUCTED"]].
Definition de_tuple_struct_G_p : paths (value de_tuple_struct_G_d) := no_paths _.
Definition de_tuple_struct_H_T : list Type := [Z : Type; list N : Type].
Definition de_tuple_struct_H_d : data := DStruct de_tuple_struct_H_T (fld [] (int_n I32) 1, (fld [] (string_n) 2, tt)).
Definition de_tuple_struct_H_a : list syn_attribute := [Some [TIdent "tag_class"; TPunct "="; TIdent "CONTEXT_SPECIFIC"; TPunct ","; TIdent "tag_pc"; TPunct "="; TIdent "CONSTRUCTED"]].
Definition de_tuple_struct_H_p : paths (value de_tuple_struct_H_d) := no_paths _.
Definition de_tuple_struct_I_T : list Type := [Z : Type; list N : Type].
Definition de_tuple_struct_I_d : data := DStruct de_tuple_struct_I_T (fld [] (int_n I32) 1, (fld [] (string_n) 2, tt)).
Definition de_tuple_struct_I_a : list syn_attribute := [Some [TIdent "id"; TPunct "="; TIdent "Boolean"; TPunct ","; TIdent "tag_class"; TPunct "="; TIdent "CONTEXT_SPECIFIC"; TPunct ","; TIdent "tag_pc"; TPunct "="; TIdent "CONSTRUCTED"]].
Definition de_tuple_struct_I_p : paths (value de_tuple_struct_I_d) := no_paths _.
Definition de_tuple_struct_J_T : list Type := [Z : Type; list N : Type].
Definition de_tuple_struct_J_d : data := DStruct de_tuple_struct_J_T (fld [] (int_n I32) 1, (fld [] (string_n) 2, tt)).
Definition de_tuple_struct_J_a : list syn_attribute := [Some [TIdent "tag_num"; TPunct "="; TLiteral "0"]].
Definition de_tuple_struct_J_p : paths (value de_tuple_struct_J_d) := no_paths _.
Definition de_tuple_struct_K_T : list Type := [Z : Type; list N : Type].
Definition de_tuple_struct_K_d : data := DStruct de_tuple_struct_K_T (fld [] (int_n I32) 1, (fld [] (string_n) 2, tt)).
Definition de_tuple_struct_K_a : list syn_attribute := [Some [TIdent "id"; TPunct "="; TIdent "Boolean"; TPunct ","; TIdent "tag_num"; TPunct "="; TLiteral "1"]].
Definition de_tuple_struct_K_p : paths (value de_tuple_struct_K_d) := no_paths _.
Definition de_tuple_struct_L_T : list Type := [Z : Type; list N : Type].
Definition de_tuple_struct_L_d : data := DStruct de_tuple_struct_L_T (fld [] (int_n I32) 1, (fld [] (string_n) 2, tt)).
Definition de_tuple_struct_L_a : list syn_attribute := [Some [TIdent "tag_class"; TPunct "="; TIdent "CONTEXT_SPECIFIC"; TPunct ","; TIdent "tag_num"; TPunct "="; TLiteral "0x1e"]].
Definition de_tuple_struct_L_p : paths (value de_tuple_struct_L_d) := no_paths _.
Definition de_tuple_struct_M_T : list Type := [Z : Type; list N : Type].
Definition de_tuple_struct_M_d : data := DStruct de_tuple_struct_M_T (fld [] (int_n I32) 1, (fld [] (string_n) 2, tt)).
Definition de_tuple_struct_M_a : list syn_attribute := [Some [TIdent "id"; TPunct "="; TIdent "Boolean"; TPunct ","; TIdent "tag_class"; TPunct "="; TIdent "CONTEXT_SPECIFIC"; TPunct ","; TIdent "tag_num"; TPunct "="; TLiteral "0x1f"]].
Definition de_tuple_struct_M_p : paths (value de_tuple_struct_M_d) := no_paths _.
Definition de_tuple_struct_N_T : list Type := [Z : Type; list N : Type].
Definition de_tuple_struct_N_d : data := DStruct de_tuple_struct_N_T (fld [] (int_n I32) 1, (fld [] (string_n) 2, tt)).
Definition de_tuple_struct_N_a : list syn_attribute := [Some [TIdent "tag_pc"; TPunct "="; TIdent "CONSTRUCTED"; TPunct ","; TIdent "tag_num"; TPunct "="; TLiteral "0x7f"]].
Definition de_tuple_struct_N_p : paths (value de_tuple_struct_N_d) := no_paths _.
Definition de_tuple_struct_O_T : list Type := [Z : Type; list N : Type].
Definition de_tuple_struct_O_d : data := DStruct de_tuple_struct_O_T (fld [] (int_n I32) 1, (fld [] (string_n) 2, tt)).
Definition de_tuple_struct_O_a : list syn_attribute := [Some [TIdent "id"; TPunct "="; TIdent "Boolean"; TPunct ","; TIdent "tag_pc"; TPunct "="; TIdent "CONSTRUCTED"; TPunct ","; TIdent "tag_num"; TPunct "="; TLiteral "0x80"]].
Definition de_tuple_struct_O_p : paths (value de_tuple_struct_O_d) := no_paths _.
Definition de_tuple_struct_P_T : list Type := [Z : Type; list N : Type].
Definition de_tuple_struct_P_d : data := DStruct de_tuple_struct_P_T (fld [] (int_n I32) 1, (fld [] (string_n) 2, tt)).
Definition de_tuple_struct_P_a : list syn_attribute := [Some [TIdent "tag_class"; TPunct "="; TIdent "CONTEXT_SPECIFIC"; TPunct ","; TIdent "tag_pc"; TPunct "="; TIdent "CONSTRUCTED"; TPunct ","; TIdent "tag_num"; TPunct "="; TLiteral "0x3fff"]].
Definition de_tuple_struct_P_p : paths (value de_tuple_struct_P_d) := no_paths _.
Definition de_tuple_struct_Q_T : list Type := [Z : Type; list N : Type].
Definition de_tuple_struct_Q_d : data := DStruct de_tuple_struct_Q_T (fld [] (int_n I32) 1, (fld [] (string_n) 2, tt)).
Definition de_tuple_struct_Q_a : list syn_attribute := [Some [TIdent "id"; TPunct "="; TIdent "Boolean"; TPunct ","; TIdent "tag_class"; TPunct "="; TIdent "CONTEXT_SPECIFIC"; TPunct ","; TIdent "tag_pc"; TPunct "="; TIdent "CONSTRUCTED"; TPunct ","; TIdent "tag_num"; TPunct "="; TLiteral "0x4000"]].
Definition de_tuple_struct_Q_p : paths (value de_tuple_struct_Q_d) := no_paths _.
(** line 106 *)
Example de_tuple_struct_test_a : test_der_back de_tuple_struct_A_a de_tuple_struct_A_d de_tuple_struct_A_p tt = Some (Ok tt) /\
  test_ber_back de_tuple_struct_A_a de_tuple_struct_A_d de_tuple_struct_A_p tt = Some (Ok tt).
Proof. conforms. Qed.
(** line 116 *)
Example de_tuple_struct_test_b : test_der_back de_tuple_struct_B_a de_tuple_struct_B_d de_tuple_struct_B_p ((123)%Z, ([97; 98; 99], tt)) = Some (Ok ((123)%Z, ([97; 98; 99], tt))) /\
  test_ber_back de_tuple_struct_B_a de_tuple_struct_B_d de_tuple_struct_B_p ((123)%Z, ([97; 98; 99], tt)) = Some (Ok ((123)%Z, ([97; 98; 99], tt))).
Proof. conforms. Qed.
(** line 126 *)
Example de_tuple_struct_test_c : test_der_back de_tuple_struct_C_a de_tuple_struct_C_d de_tuple_struct_C_p ((123)%Z, ([97; 98; 99], tt)) = Some (Ok ((123)%Z, ([97; 98; 99], tt))) /\
  test_ber_back de_tuple_struct_C_a de_tuple_struct_C_d de_tuple_struct_C_p ((123)%Z, ([97; 98; 99], tt)) = Some (Ok ((123)%Z, ([97; 98; 99], tt))).
Proof. conforms. Qed.
(** line 136 *)
Example de_tuple_struct_test_d : test_der_back de_tuple_struct_D_a de_tuple_struct_D_d de_tuple_struct_D_p ((123)%Z, ([97; 98; 99], tt)) = Some (Ok ((123)%Z, ([97; 98; 99], tt))) /\
  test_ber_back de_tuple_struct_D_a de_tuple_struct_D_d de_tuple_struct_D_p ((123)%Z, ([97; 98; 99], tt)) = Some (Ok ((123)%Z, ([97; 98; 99], tt))).
Proof. conforms. Qed.
(** line 146 *)
Example de_tuple_struct_test_e : test_der_back de_tuple_struct_E_a de_tuple_struct_E_d de_tuple_struct_E_p ((123)%Z, ([97; 98; 99], tt)) = Some (Ok ((123)%Z, ([97; 98; 99], tt))) /\
  test_ber_back de_tuple_struct_E_a de_tuple_struct_E_d de_tuple_struct_E_p ((123)%Z, ([97; 98; 99], tt)) = Some (Ok ((123)%Z, ([97; 98; 99], tt))).
Proof. conforms. Qed.
(** line 156 *)
Example de_tuple_struct_test_f : test_der_back de_tuple_struct_F_a de_tuple_struct_F_d de_tuple_struct_F_p ((123)%Z, ([97; 98; 99], tt)) = Some (Ok ((123)%Z, ([97; 98; 99], tt))) /\
  test_ber_back de_tuple_struct_F_a de_tuple_struct_F_d de_tuple_struct_F_p ((123)%Z, ([97; 98; 99], tt)) = Some (Ok ((123)%Z, ([97; 98; 99], tt))).
Proof. conforms. Qed.
(** line 166 *)
Example de_tuple_struct_test_g : test_der_back de_tuple_struct_G_a de_tuple_struct_G_d de_tuple_struct_G_p ((123)%Z, ([97; 98; 99], tt)) = Some (Ok ((123)%Z, ([97; 98; 99], tt))) /\
  test_ber_back de_tuple_struct_G_a de_tuple_struct_G_d de_tuple_struct_G_p ((123)%Z, ([97; 98; 99], tt)) = Some (Ok ((123)%Z, ([97; 98; 99], tt))).
Proof. conforms. Qed.
(** line 176 *)
Example de_tuple_struct_test_h : test_der_back de_tuple_struct_H_a de_tuple_struct_H_d de_tuple_struct_H_p ((123)%Z, ([97; 98; 99], tt)) = Some (Ok ((123)%Z, ([97; 98; 99], tt))) /\
  test_ber_back de_tuple_struct_H_a de_tuple_struct_H_d de_tuple_struct_H_p ((123)%Z, ([97; 98; 99], tt)) = Some (Ok ((123)%Z, ([97; 98; 99], tt))).
Proof. conforms. Qed.
(** line 186 *)
Example de_tuple_struct_test_i : test_der_back de_tuple_struct_I_a de_tuple_struct_I_d de_tuple_struct_I_p ((123)%Z, ([97; 98; 99], tt)) = Some (Ok ((123)%Z, ([97; 98; 99], tt))) /\
  test_ber_back de_tuple_struct_I_a de_tuple_struct_I_d de_tuple_struct_I_p ((123)%Z, ([97; 98; 99], tt)) = Some (Ok ((123)%Z, ([97; 98; 99], tt))).
Proof. conforms. Qed.
(** line 196 *)
Example de_tuple_struct_test_j : test_der_back de_tuple_struct_J_a de_tuple_struct_J_d de_tuple_struct_J_p ((123)%Z, ([97; 98; 99], tt)) = Some (Ok ((123)%Z, ([97; 98; 99], tt))) /\
  test_ber_back de_tuple_struct_J_a de_tuple_struct_J_d de_tuple_struct_J_p ((123)%Z, ([97; 98; 99], tt)) = Some (Ok ((123)%Z, ([97; 98; 99], tt))).
Proof. conforms. Qed.
(** line 206 *)
Example de_tuple_struct_test_k : test_der_back de_tuple_struct_K_a de_tuple_struct_K_d de_tuple_struct_K_p ((123)%Z, ([97; 98; 99], tt)) = Some (Ok ((123)%Z, ([97; 98; 99], tt))) /\
  test_ber_back de_tuple_struct_K_a de_tuple_struct_K_d de_tuple_struct_K_p ((123)%Z, ([97; 98; 99], tt)) = Some (Ok ((123)%Z, ([97; 98; 99], tt))).
Proof. conforms. Qed.
(** line 216 *)
Example de_tuple_struct_test_l : test_der_back de_tuple_struct_L_a de_tuple_struct_L_d de_tuple_struct_L_p ((123)%Z, ([97; 98; 99], tt)) = Some (Ok ((123)%Z, ([97; 98; 99], tt))) /\
  test_ber_back de_tuple_struct_L_a de_tuple_struct_L_d de_tuple_struct_L_p ((123)%Z, ([97; 98; 99], tt)) = Some (Ok ((123)%Z, ([97; 98; 99], tt))).
Proof. conforms. Qed.
(** line 226 *)
Example de_tuple_struct_test_m : test_der_back de_tuple_struct_M_a de_tuple_struct_M_d de_tuple_struct_M_p ((123)%Z, ([97; 98; 99], tt)) = Some (Ok ((123)%Z, ([97; 98; 99], tt))) /\
  test_ber_back de_tuple_struct_M_a de_tuple_struct_M_d de_tuple_struct_M_p ((123)%Z, ([97; 98; 99], tt)) = Some (Ok ((123)%Z, ([97; 98; 99], tt))).
Proof. conforms. Qed.
(** line 236 *)
Example de_tuple_struct_test_n : test_der_back de_tuple_struct_N_a de_tuple_struct_N_d de_tuple_struct_N_p ((123)%Z, ([97; 98; 99], tt)) = Some (Ok ((123)%Z, ([97; 98; 99], tt))) /\
  test_ber_back de_tuple_struct_N_a de_tuple_struct_N_d de_tuple_struct_N_p ((123)%Z, ([97; 98; 99], tt)) = Some (Ok ((123)%Z, ([97; 98; 99], tt))).
Proof. conforms. Qed.
(** line 246 *)
Example de_tuple_struct_test_o : test_der_back de_tuple_struct_O_a de_tuple_struct_O_d de_tuple_struct_O_p ((123)%Z, ([97; 98; 99], tt)) = Some (Ok ((123)%Z, ([97; 98; 99], tt))) /\
  test_ber_back de_tuple_struct_O_a de_tuple_struct_O_d de_tuple_struct_O_p ((123)%Z, ([97; 98; 99], tt)) = Some (Ok ((123)%Z, ([97; 98; 99], tt))).
Proof. conforms. Qed.
(** line 256 *)
Example de_tuple_struct_test_p : test_der_back de_tuple_struct_P_a de_tuple_struct_P_d de_tuple_struct_P_p ((123)%Z, ([97; 98; 99], tt)) = Some (Ok ((123)%Z, ([97; 98; 99], tt))) /\
  test_ber_back de_tuple_struct_P_a de_tuple_struct_P_d de_tuple_struct_P_p ((123)%Z, ([97; 98; 99], tt)) = Some (Ok ((123)%Z, ([97; 98; 99], tt))).
Proof. conforms. Qed.
(** line 266 *)
Example de_tuple_struct_test_q : test_der_back de_tuple_struct_Q_a de_tuple_struct_Q_d de_tuple_struct_Q_p ((123)%Z, ([97; 98; 99], tt)) = Some (Ok ((123)%Z, ([97; 98; 99], tt))) /\
  test_ber_back de_tuple_struct_Q_a de_tuple_struct_Q_d de_tuple_struct_Q_p ((123)%Z, ([97; 98; 99], tt)) = Some (Ok ((123)%Z, ([97; 98; 99], tt))).
Proof. conforms. Qed.

(** tests/de/named_field_struct.rs *)
Definition de_named_field_struct_A_T : list Type := [].
Definition de_named_field_struct_A_d : data := DStruct de_named_field_struct_A_T tt.
Definition de_named_field_struct_A_a : list syn_attribute := [].
Definition de_named_field_struct_A_p : paths (value de_named_field_struct_A_d) := no_paths _.
Definition de_named_field_struct_B_T : list Type := [Z : Type; list N : Type].
Definition de_named_field_struct_B_d : data := DStruct de_named_field_struct_B_T (fld [] (int_n I32) 1, (fld [] (string_n) 2, tt)).
Definition de_named_field_struct_B_a : list syn_attribute := [None].
Definition de_named_field_struct_B_p : paths (value de_named_field_struct_B_d) := no_paths _.
Definition de_named_field_struct_C_T : list Type := [Z : Type; list N : Type].
Definition de_named_field_struct_C_d : data := DStruct de_named_field_struct_C_T (fld [] (int_n I32) 1, (fld [] (string_n) 2, tt)).
Definition de_named_field_struct_C_a : list syn_attribute := [Some [TIdent "id"; TPunct "="; TIdent "Set"]].
Definition de_named_field_struct_C_p : paths (value de_named_field_struct_C_d) := no_paths _.
Definition de_named_field_struct_D_T : list Type := [Z : Type; list N : Type].
Definition de_named_field_struct_D_d : data := DStruct de_named_field_struct_D_T (fld [] (int_n I32) 1, (fld [] (string_n) 2, tt)).
Definition de_named_field_struct_D_a : list syn_attribute := [Some [TIdent "tag_class"; TPunct "="; TIdent "UNIVERSAL"]].
Definition de_named_field_struct_D_p : paths (value de_named_field_struct_D_d) := no_paths _.
Definition de_named_field_struct_E_T : list Type := [Z : Type; list N : Type].
Definition de_named_field_struct_E_d : data := DStruct de_named_field_struct_E_T (fld [] (int_n I32) 1, (fld [] (string_n) 2, tt)).
Definition de_named_field_struct_E_a : list syn_attribute := [Some [TIdent "id"; TPunct "="; TIdent "Set"; TPunct ","; TIdent "tag_class"; TPunct "="; TIdent "UNIVERSAL"]].
Definition de_named_field_struct_E_p : paths (value de_named_field_struct_E_d) := no_paths _.
Definition de_named_field_struct_F_T : list Type := [Z : Type; list N : Type].
Definition de_named_field_struct_F_d : data := DStruct de_named_field_struct_F_T (fld [] (int_n I32) 1, (fld [] (string_n) 2, tt)).
Definition de_named_field_struct_F_a : list syn_attribute := [Some [TIdent "tag_pc"; TPunct "="; TIdent "CONSTRUCTED"]].
Definition de_named_field_struct_F_p : paths (value de_named_field_struct_F_d) := no_paths _.
Definition de_named_field_struct_G_T : list Type := [Z : Type; list N : Type].
Definition de_named_field_struct_G_d : data := DStruct de_named_field_struct_G_T (fld [] (int_n I32) 1, (fld [] (string_n) 2, tt)).
Definition de_named_field_struct_G_a : list syn_attribute := [Some [TIdent "id"; TPunct "="; TIdent "Set"; TPunct ","; TIdent "tag_pc"; TPunct "="; TIdent "CONSTRUCTED"]].
Definition de_named_field_struct_G_p : paths (value de_named_field_struct_G_d) := no_paths _.
Definition de_named_field_struct_H_T : list Type := [Z : Type; list N : Type].
Definition de_named_field_struct_H_d : data := DStruct de_named_field_struct_H_T (fld [] (int_n I32) 1, (fld [] (string_n) 2, tt)).
Definition de_named_field_struct_H_a : list syn_attribute := [Some [TIdent "tag_class"; TPunct "="; TIdent "UNIVERSAL"; TPunct ","; TIdent "tag_pc"; TPunct "="; TIdent "CONSTRUCTED"]].
Definition de_named_field_struct_H_p : paths (value de_named_field_struct_H_d) := no_paths _.
Definition de_named_field_struct_I_T : list Type := [Z : Type; list N : Type].
Definition de_named_field_struct_I_d : data := DStruct de_named_field_struct_I_T (fld [] (int_n I32) 1, (fld [] (string_n) 2, tt)).
Definition de_named_field_struct_I_a : list syn_attribute := [Some [TIdent "id"; TPunct "="; TIdent "Set"; TPunct ","; TIdent "tag_class"; TPunct "="; TIdent "UNIVERSAL"; TPunct ","; TIdent "tag_pc"; TPunct "="; TIdent "CONSTRUCTED"]].
Definition de_named_field_struct_I_p : paths (value de_named_field_struct_I_d) := no_paths _.
Definition de_named_field_struct_J_T : list Type := [Z : Type; list N : Type].
Definition de_named_field_struct_J_d : data := DStruct de_named_field_struct_J_T (fld [] (int_n I32) 1, (fld [] (string_n) 2, tt)).
Definition de_named_field_struct_J_a : list syn_attribute := [Some [TIdent "tag_num"; TPunct "="; TLiteral "0"]].
Definition de_named_field_struct_J_p : paths (value de_named_field_struct_J_d) := no_paths _.
Definition de_named_field_struct_K_T : list Type := [Z : Type; list N : Type].
Definition de_named_field_struct_K_d : data := DStruct de_named_field_struct_K_T (fld [] (int_n I32) 1, (fld [] (string_n) 2, tt)).
Definition de_named_field_struct_K_a : list syn_attribute := [Some [TIdent "id"; TPunct "="; TIdent "Set"; TPunct ","; TIdent "tag_num"; TPunct "="; TLiteral "1"]].
Definition de_named_field_struct_K_p : paths (value de_named_field_struct_K_d) := no_paths _.
Definition de_named_field_struct_L_T : list Type := [Z : Type; list N : Type].
Definition de_named_field_struct_L_d : data := DStruct de_named_field_struct_L_T (fld [] (int_n I32) 1, (fld [] (string_n) 2, tt)).
Definition de_named_field_struct_L_a : list syn_attribute := [Some [TIdent "tag_class"; TPunct "="; TIdent "UNIVERSAL"; TPunct ","; TIdent "tag_num"; TPunct "="; TLiteral "0x1e"]].
Definition de_named_field_struct_L_p : paths (value de_named_field_struct_L_d) := no_paths _.
Definition de_named_field_struct_M_T : list Type := [Z : Type; list N : Type].
Definition de_named_field_struct_M_d : data := DStruct de_named_field_struct_M_T (fld [] (int_n I32) 1, (fld [] (string_n) 2, tt)).
Definition de_named_field_struct_M_a : list syn_attribute := [Some [TIdent "id"; TPunct "="; TIdent "Set"; TPunct ","; TIdent "tag_class"; TPunct "="; TIdent "UNIVERSAL"; TPunct ","; TIdent "tag_num"; TPunct "="; TLiteral "0x1f"]].
Definition de_named_field_struct_M_p : paths (value de_named_field_struct_M_d) := no_paths _.
Definition de_named_field_struct_N_T : list Type := [Z : Type; list N : Type].
Definition de_named_field_struct_N_d : data := DStruct de_named_field_struct_N_T (fld [] (int_n I32) 1, (fld [] (string_n) 2, tt)).
Definition de_named_field_struct_N_a : list syn_attribute := [Some [TIdent "tag_pc"; TPunct "="; TIdent "CONSTRUCTED"; TPunct ","; TIdent "tag_num"; TPunct "="; TLiteral "0x7f"]].
Definition de_named_field_struct_N_p : paths (value de_named_field_struct_N_d) := no_paths _.
Definition de_named_field_struct_O_T : list Type := [Z : Type; list N : Type].
Definition de_named_field_struct_O_d : data := DStruct de_named_field_struct_O_T (fld [] (int_n I32) 1, (fld [] (string_n) 2, tt)).
Definition de_named_field_struct_O_a : list syn_attribute := [Some [TIdent "id"; TPunct "="; TIdent "Set"; TPunct ","; TIdent "tag_pc"; TPunct "="; TIdent "CONSTRUCTED"; TPunct ","; TIdent "tag_num"; TPunct "="; TLiteral "0x80"]].
Definition de_named_field_struct_O_p : paths (value de_named_field_struct_O_d) := no_paths _.
Definition de_named_field_struct_P_T : list Type := [Z : Type; list N : Type].
Definition de_named_field_struct_P_d : data := DStruct de_named_field_struct_P_T (fld [] (int_n I32) 1, (fld [] (string_n) 2, tt)).
Definition de_named_field_struct_P_a : list syn_attribute := [Some [TIdent "tag_class"; TPunct "="; TIdent "UNIVERSAL"; TPunct ","; TIdent "tag_pc"; TPunct "="; TIdent "CONSTRUCTED"; TPunct ","; TIdent "tag_num"; TPunct "="; TLiteral "0x3fff"]].
Definition de_named_field_struct_P_p : paths (value de_named_field_struct_P_d) := no_paths _.
Definition de_named_field_struct_Q_T : list Type := [Z : Type; list N : Type].
Definition de_named_field_struct_Q_d : data := DStruct de_named_field_struct_Q_T (fld [] (int_n I32) 1, (fld [] (string_n) 2, tt)).
Definition de_named_field_struct_Q_a : list syn_attribute := [Some [TIdent "id"; TPunct "="; TIdent "Set"; TPunct ","; TIdent "tag_class"; TPunct "="; TIdent "UNIVERSAL"; TPunct ","; TIdent "tag_pc"; TPunct "="; TIdent "CONSTRUCTED"; TPunct ","; TIdent "tag_num"; TPunct "="; TLiteral "0x4000"]].
Definition de_named_field_struct_Q_p : paths (value de_named_field_struct_Q_d) := no_paths _.
(** line 154 *)
Example de_named_field_struct_test_a : test_der_back de_named_field_struct_A_a de_named_field_struct_A_d de_named_field_struct_A_p tt = Some (Ok tt) /\
  test_ber_back de_named_field_struct_A_a de_named_field_struct_A_d de_named_field_struct_A_p tt = Some (Ok tt).
Proof. conforms. Qed.
(** line 164 *)
Example de_named_field_struct_test_b : test_der_back de_named_field_struct_B_a de_named_field_struct_B_d de_named_field_struct_B_p ((123)%Z, ([97; 98; 99], tt)) = Some (Ok ((123)%Z, ([97; 98; 99], tt))) /\
  test_ber_back de_named_field_struct_B_a de_named_field_struct_B_d de_named_field_struct_B_p ((123)%Z, ([97; 98; 99], tt)) = Some (Ok ((123)%Z, ([97; 98; 99], tt))).
Proof. conforms. Qed.
(** line 177 *)
Example de_named_field_struct_test_c : test_der_back de_named_field_struct_C_a de_named_field_struct_C_d de_named_field_struct_C_p ((123)%Z, ([97; 98; 99], tt)) = Some (Ok ((123)%Z, ([97; 98; 99], tt))) /\
  test_ber_back de_named_field_struct_C_a de_named_field_struct_C_d de_named_field_struct_C_p ((123)%Z, ([97; 98; 99], tt)) = Some (Ok ((123)%Z, ([97; 98; 99], tt))).
Proof. conforms. Qed.
(** line 190 *)
Example de_named_field_struct_test_d : test_der_back de_named_field_struct_D_a de_named_field_struct_D_d de_named_field_struct_D_p ((123)%Z, ([97; 98; 99], tt)) = Some (Ok ((123)%Z, ([97; 98; 99], tt))) /\
  test_ber_back de_named_field_struct_D_a de_named_field_struct_D_d de_named_field_struct_D_p ((123)%Z, ([97; 98; 99], tt)) = Some (Ok ((123)%Z, ([97; 98; 99], tt))).
Proof. conforms. Qed.
(** line 203 *)
Example de_named_field_struct_test_e : test_der_back de_named_field_struct_E_a de_named_field_struct_E_d de_named_field_struct_E_p ((123)%Z, ([97; 98; 99], tt)) = Some (Ok ((123)%Z, ([97; 98; 99], tt))) /\
  test_ber_back de_named_field_struct_E_a de_named_field_struct_E_d de_named_field_struct_E_p ((123)%Z, ([97; 98; 99], tt)) = Some (Ok ((123)%Z, ([97; 98; 99], tt))).
Proof. conforms. Qed.
(** line 216 *)
Example de_named_field_struct_test_f : test_der_back de_named_field_struct_F_a de_named_field_struct_F_d de_named_field_struct_F_p ((123)%Z, ([97; 98; 99], tt)) = Some (Ok ((123)%Z, ([97; 98; 99], tt))) /\
  test_ber_back de_named_field_struct_F_a de_named_field_struct_F_d de_named_field_struct_F_p ((123)%Z, ([97; 98; 99], tt)) = Some (Ok ((123)%Z, ([97; 98; 99], tt))).
Proof. conforms. Qed.
(** line 229 *)
Example de_named_field_struct_test_g : test_der_back de_named_field_struct_G_a de_named_field_struct_G_d de_named_field_struct_G_p ((123)%Z, ([97; 98; 99], tt)) = Some (Ok ((123)%Z, ([97; 98; 99], tt))) /\
  test_ber_back de_named_field_struct_G_a de_named_field_struct_G_d de_named_field_struct_G_p ((123)%Z, ([97; 98; 99], tt)) = Some (Ok ((123)%Z, ([97; 98; 99], tt))).
Proof. conforms. Qed.
(** line 242 *)
Example de_named_field_struct_test_h : test_der_back de_named_field_struct_H_a de_named_field_struct_H_d de_named_field_struct_H_p ((123)%Z, ([97; 98; 99], tt)) = Some (Ok ((123)%Z, ([97; 98; 99], tt))) /\
  test_ber_back de_named_field_struct_H_a de_named_field_struct_H_d de_named_field_struct_H_p ((123)%Z, ([97; 98; 99], tt)) = Some (Ok ((123)%Z, ([97; 98; 99], tt))).
Proof. conforms. Qed.
(** line 255 *)
Example de_named_field_struct_test_i : test_der_back de_named_field_struct_I_a de_named_field_struct_I_d de_named_field_struct_I_p ((123)%Z, ([97; 98; 99], tt)) = Some (Ok ((123)%Z, ([97; 98; 99], tt))) /\
  test_ber_back de_named_field_struct_I_a de_named_field_struct_I_d de_named_field_struct_I_p ((123)%Z, ([97; 98; 99], tt)) = Some (Ok ((123)%Z, ([97; 98; 99], tt))).
Proof. conforms. Qed.
(** line 268 *)
Example de_named_field_struct_test_j : test_der_back de_named_field_struct_J_a de_named_field_struct_J_d de_named_field_struct_J_p ((123)%Z, ([97; 98; 99], tt)) = Some (Ok ((123)%Z, ([97; 98; 99], tt))) /\
  test_ber_back de_named_field_struct_J_a de_named_field_struct_J_d de_named_field_struct_J_p ((123)%Z, ([97; 98; 99], tt)) = Some (Ok ((123)%Z, ([97; 98; 99], tt))).
Proof. conforms. Qed.
(** line 281 *)
Example de_named_field_struct_test_k : test_der_back de_named_field_struct_K_a de_named_field_struct_K_d de_named_field_struct_K_p ((123)%Z, ([97; 98; 99], tt)) = Some (Ok ((123)%Z, ([97; 98; 99], tt))) /\
  test_ber_back de_named_field_struct_K_a de_named_field_struct_K_d de_named_field_struct_K_p ((123)%Z, ([97; 98; 99], tt)) = Some (Ok ((123)%Z, ([97; 98; 99], tt))).
Proof. conforms. Qed.
(** line 294 *)
Example de_named_field_struct_test_l : test_der_back de_named_field_struct_L_a de_named_field_struct_L_d de_named_field_struct_L_p ((123)%Z, ([97; 98; 99], tt)) = Some (Ok ((123)%Z, ([97; 98; 99], tt))) /\
  test_ber_back de_named_field_struct_L_a de_named_field_struct_L_d de_named_field_struct_L_p ((123)%Z, ([97; 98; 99], tt)) = Some (Ok ((123)%Z, ([97; 98; 99], tt))).
Proof. conforms. Qed.
(** line 307 *)
Example de_named_field_struct_test_m : test_der_back de_named_field_struct_M_a de_named_field_struct_M_d de_named_field_struct_M_p ((123)%Z, ([97; 98; 99], tt)) = Some (Ok ((123)%Z, ([97; 98; 99], tt))) /\
  test_ber_back de_named_field_struct_M_a de_named_field_struct_M_d de_named_field_struct_M_p ((123)%Z, ([97; 98; 99], tt)) = Some (Ok ((123)%Z, ([97; 98; 99], tt))).
Proof. conforms. Qed.
(** line 320 *)
Example de_named_field_struct_test_n : test_der_back de_named_field_struct_N_a de_named_field_struct_N_d de_named_field_struct_N_p ((123)%Z, ([97; 98; 99], tt)) = Some (Ok ((123)%Z, ([97; 98; 99], tt))) /\
  test_ber_back de_named_field_struct_N_a de_named_field_struct_N_d de_named_field_struct_N_p ((123)%Z, ([97; 98; 99], tt)) = Some (Ok ((123)%Z, ([97; 98; 99], tt))).
Proof. conforms. Qed.
(** line 333 *)
Example de_named_field_struct_test_o : test_der_back de_named_field_struct_O_a de_named_field_struct_O_d de_named_field_struct_O_p ((123)%Z, ([97; 98; 99], tt)) = Some (Ok ((123)%Z, ([97; 98; 99], tt))) /\
  test_ber_back de_named_field_struct_O_a de_named_field_struct_O_d de_named_field_struct_O_p ((123)%Z, ([97; 98; 99], tt)) = Some (Ok ((123)%Z, ([97; 98; 99], tt))).
Proof. conforms. Qed.
(** line 346 *)
Example de_named_field_struct_test_p : test_der_back de_named_field_struct_P_a de_named_field_struct_P_d de_named_field_struct_P_p ((123)%Z, ([97; 98; 99], tt)) = Some (Ok ((123)%Z, ([97; 98; 99], tt))) /\
  test_ber_back de_named_field_struct_P_a de_named_field_struct_P_d de_named_field_struct_P_p ((123)%Z, ([97; 98; 99], tt)) = Some (Ok ((123)%Z, ([97; 98; 99], tt))).
Proof. conforms. Qed.
(** line 359 *)
Example de_named_field_struct_test_q : test_der_back de_named_field_struct_Q_a de_named_field_struct_Q_d de_named_field_struct_Q_p ((123)%Z, ([97; 98; 99], tt)) = Some (Ok ((123)%Z, ([97; 98; 99], tt))) /\
  test_ber_back de_named_field_struct_Q_a de_named_field_struct_Q_d de_named_field_struct_Q_p ((123)%Z, ([97; 98; 99], tt)) = Some (Ok ((123)%Z, ([97; 98; 99], tt))).
Proof. conforms. Qed.

(** tests/de/unit_enum.rs *)
Definition de_unit_enum_X_T : list (list Type) := [[]; []; []; []; []; []; []; []; []; []; []; []; []; []; []; []].
Definition de_unit_enum_X_d : data := DEnum de_unit_enum_X_T ({| vd_attrs := [Some []]; vd_fields := tt : hlist field_decl [] |}, ({| vd_attrs := [Some [TIdent "id"; TPunct "="; TIdent "Set"]]; vd_fields := tt : hlist field_decl [] |}, ({| vd_attrs := [Some [TIdent "tag_class"; TPunct "="; TIdent "CONTEXT_SPECIFIC"]]; vd_fields := tt : hlist field_decl [] |}, ({| vd_attrs := [Some [TIdent "tag_class"; TPunct "="; TIdent "CONTEXT_SPECIFIC"; TPunct ","; TIdent "id"; TPunct "="; TIdent "Set"]]; vd_fields := tt : hlist field_decl [] |}, ({| vd_attrs := [Some [TIdent "tag_pc"; TPunct "="; TIdent "PRIMITIVE"]]; vd_fields := tt : hlist field_decl [] |}, ({| vd_attrs := [Some [TIdent "tag_pc"; TPunct "="; TIdent "PRIMITIVE"; TPunct ","; TIdent "id"; TPunct "="; TIdent "Set"]]; vd_fields := tt : hlist field_decl [] |}, ({| vd_attrs := [Some [TIdent "tag_pc"; TPunct "="; TIdent "PRIMITIVE"; TPunct ","; TIdent "tag_class"; TPunct "="; TIdent "CONTEXT_SPECIFIC"]]; vd_fields := tt : hlist field_decl [] |}, ({| vd_attrs := [Some [TIdent "tag_pc"; TPunct "="; TIdent "PRIMITIVE"; TPunct ","; TIdent "tag_class"; TPunct "="; TIdent "CONTEXT_SPECIFIC"; TPunct ","; TIdent "id"; TPunct "="; TIdent "Set"]]; vd_fields := tt : hlist field_decl [] |}, ({| vd_attrs := [Some [TIdent "tag_num"; TPunct "="; TLiteral "0"]]; vd_fields := tt : hlist field_decl [] |}, ({| vd_attrs := [Some [TIdent "tag_num"; TPunct "="; TLiteral "1"; TPunct ","; TIdent "id"; TPunct "="; TIdent "Set"]]; vd_fields := tt : hlist field_decl [] |}, ({| vd_attrs := [Some [TIdent "tag_num"; TPunct "="; TLiteral "0x1e"; TPunct ","; TIdent "tag_class"; TPunct "="; TIdent "CONTEXT_SPECIFIC"]]; vd_fields := tt : hlist field_decl [] |}, ({| vd_attrs := [Some [TIdent "tag_num"; TPunct "="; TLiteral "0x1f"; TPunct ","; TIdent "tag_class"; TPunct "="; TIdent "CONTEXT_SPECIFIC"; TPunct ","; TIdent "id"; TPunct "="; TIdent "Set"]]; vd_fields := tt : hlist field_decl [] |}, ({| vd_attrs := [Some [TIdent "tag_num"; TPunct "="; TLiteral "0x7f"; TPunct ","; TIdent "tag_pc"; TPunct "="; TIdent "PRIMITIVE"]]; vd_fields := tt : hlist field_decl [] |}, ({| vd_attrs := [Some [TIdent "tag_num"; TPunct "="; TLiteral "0x80"; TPunct ","; TIdent "tag_pc"; TPunct "="; TIdent "PRIMITIVE"; TPunct ","; TIdent "id"; TPunct "="; TIdent "Set"]]; vd_fields := tt : hlist field_decl [] |}, ({| vd_attrs := [Some [TIdent "tag_num"; TPunct "="; TLiteral "0x3fff"; TPunct ","; TIdent "tag_pc"; TPunct "="; TIdent "PRIMITIVE"; TPunct ","; TIdent "tag_class"; TPunct "="; TIdent "CONTEXT_SPECIFIC"]]; vd_fields := tt : hlist field_decl [] |}, ({| vd_attrs := [Some [TIdent "tag_num"; TPunct "="; TLiteral "0x4000"; TPunct ","; TIdent "tag_pc"; TPunct "="; TIdent "PRIMITIVE"; TPunct ","; TIdent "tag_class"; TPunct "="; TIdent "CONTEXT_SPECIFIC"; TPunct ","; TIdent "id"; TPunct "="; TIdent "Set"]]; vd_fields := tt : hlist field_decl [] |}, tt)))))))))))))))).
Definition de_unit_enum_X_a : list syn_attribute := [].
Definition de_unit_enum_X_p : paths (value de_unit_enum_X_d) := no_paths _.
(** line 75 *)
Example de_unit_enum_test_xb : test_der_back de_unit_enum_X_a de_unit_enum_X_d de_unit_enum_X_p (inl tt) = Some (Ok (inl tt)) /\
  test_ber_back de_unit_enum_X_a de_unit_enum_X_d de_unit_enum_X_p (inl tt) = Some (Ok (inl tt)).
Proof. conforms. Qed.
(** line 85 *)
Example de_unit_enum_test_xc : test_der_back de_unit_enum_X_a de_unit_enum_X_d de_unit_enum_X_p (inr (inl tt)) = Some (Ok (inr (inl tt))) /\
  test_ber_back de_unit_enum_X_a de_unit_enum_X_d de_unit_enum_X_p (inr (inl tt)) = Some (Ok (inr (inl tt))).
Proof. conforms. Qed.
(** line 95 *)
Example de_unit_enum_test_xd : test_der_back de_unit_enum_X_a de_unit_enum_X_d de_unit_enum_X_p (inr (inr (inl tt))) = Some (Ok (inr (inr (inl tt)))) /\
  test_ber_back de_unit_enum_X_a de_unit_enum_X_d de_unit_enum_X_p (inr (inr (inl tt))) = Some (Ok (inr (inr (inl tt)))).
Proof. conforms. Qed.
(** line 105 *)
Example de_unit_enum_test_xe : test_der_back de_unit_enum_X_a de_unit_enum_X_d de_unit_enum_X_p (inr (inr (inr (inl tt)))) = Some (Ok (inr (inr (inr (inl tt))))) /\
  test_ber_back de_unit_enum_X_a de_unit_enum_X_d de_unit_enum_X_p (inr (inr (inr (inl tt)))) = Some (Ok (inr (inr (inr (inl tt))))).
Proof. conforms. Qed.
(** line 115 *)
Example de_unit_enum_test_xf : test_der_back de_unit_enum_X_a de_unit_enum_X_d de_unit_enum_X_p (inr (inr (inr (inr (inl tt))))) = Some (Ok (inr (inr (inr (inr (inl tt)))))) /\
  test_ber_back de_unit_enum_X_a de_unit_enum_X_d de_unit_enum_X_p (inr (inr (inr (inr (inl tt))))) = Some (Ok (inr (inr (inr (inr (inl tt)))))).
Proof. conforms. Qed.
(** line 125 *)
Example de_unit_enum_test_xg : test_der_back de_unit_enum_X_a de_unit_enum_X_d de_unit_enum_X_p (inr (inr (inr (inr (inr (inl tt)))))) = Some (Ok (inr (inr (inr (inr (inr (inl tt))))))) /\
  test_ber_back de_unit_enum_X_a de_unit_enum_X_d de_unit_enum_X_p (inr (inr (inr (inr (inr (inl tt)))))) = Some (Ok (inr (inr (inr (inr (inr (inl tt))))))).
Proof. conforms. Qed.
(** line 135 *)
Example de_unit_enum_test_xh : test_der_back de_unit_enum_X_a de_unit_enum_X_d de_unit_enum_X_p (inr (inr (inr (inr (inr (inr (inl tt))))))) = Some (Ok (inr (inr (inr (inr (inr (inr (inl tt)))))))) /\
  test_ber_back de_unit_enum_X_a de_unit_enum_X_d de_unit_enum_X_p (inr (inr (inr (inr (inr (inr (inl tt))))))) = Some (Ok (inr (inr (inr (inr (inr (inr (inl tt)))))))).
Proof. conforms. Qed.
(** line 145 *)
Example de_unit_enum_test_xi : test_der_back de_unit_enum_X_a de_unit_enum_X_d de_unit_enum_X_p (inr (inr (inr (inr (inr (inr (inr (inl tt)))))))) = Some (Ok (inr (inr (inr (inr (inr (inr (inr (inl tt))))))))) /\
  test_ber_back de_unit_enum_X_a de_unit_enum_X_d de_unit_enum_X_p (inr (inr (inr (inr (inr (inr (inr (inl tt)))))))) = Some (Ok (inr (inr (inr (inr (inr (inr (inr (inl tt))))))))).
Proof. conforms. Qed.
(** line 155 *)
Example de_unit_enum_test_xj : test_der_back de_unit_enum_X_a de_unit_enum_X_d de_unit_enum_X_p (inr (inr (inr (inr (inr (inr (inr (inr (inl tt))))))))) = Some (Ok (inr (inr (inr (inr (inr (inr (inr (inr (inl tt)))))))))) /\
  test_ber_back de_unit_enum_X_a de_unit_enum_X_d de_unit_enum_X_p (inr (inr (inr (inr (inr (inr (inr (inr (inl tt))))))))) = Some (Ok (inr (inr (inr (inr (inr (inr (inr (inr (inl tt)))))))))).
Proof. conforms. Qed.
(** line 165 *)
Example de_unit_enum_test_xk : test_der_back de_unit_enum_X_a de_unit_enum_X_d de_unit_enum_X_p (inr (inr (inr (inr (inr (inr (inr (inr (inr (inl tt)))))))))) = Some (Ok (inr (inr (inr (inr (inr (inr (inr (inr (inr (inl tt))))))))))) /\
  test_ber_back de_unit_enum_X_a de_unit_enum_X_d de_unit_enum_X_p (inr (inr (inr (inr (inr (inr (inr (inr (inr (inl tt)))))))))) = Some (Ok (inr (inr (inr (inr (inr (inr (inr (inr (inr (inl tt))))))))))).
Proof. conforms. Qed.
(** line 175 *)
Example de_unit_enum_test_xl : test_der_back de_unit_enum_X_a de_unit_enum_X_d de_unit_enum_X_p (inr (inr (inr (inr (inr (inr (inr (inr (inr (inr (inl tt))))))))))) = Some (Ok (inr (inr (inr (inr (inr (inr (inr (inr (inr (inr (inl tt)))))))))))) /\
  test_ber_back de_unit_enum_X_a de_unit_enum_X_d de_unit_enum_X_p (inr (inr (inr (inr (inr (inr (inr (inr (inr (inr (inl tt))))))))))) = Some (Ok (inr (inr (inr (inr (inr (inr (inr (inr (inr (inr (inl tt)))))))))))).
Proof. conforms. Qed.
(** line 185 *)
Example de_unit_enum_test_xm : test_der_back de_unit_enum_X_a de_unit_enum_X_d de_unit_enum_X_p (inr (inr (inr (inr (inr (inr (inr (inr (inr (inr (inr (inl tt)))))))))))) = Some (Ok (inr (inr (inr (inr (inr (inr (inr (inr (inr (inr (inr (inl tt))))))))))))) /\
  test_ber_back de_unit_enum_X_a de_unit_enum_X_d de_unit_enum_X_p (inr (inr (inr (inr (inr (inr (inr (inr (inr (inr (inr (inl tt)))))))))))) = Some (Ok (inr (inr (inr (inr (inr (inr (inr (inr (inr (inr (inr (inl tt))))))))))))).
Proof. conforms. Qed.
(** line 195 *)
Example de_unit_enum_test_xn : test_der_back de_unit_enum_X_a de_unit_enum_X_d de_unit_enum_X_p (inr (inr (inr (inr (inr (inr (inr (inr (inr (inr (inr (inr (inl tt))))))))))))) = Some (Ok (inr (inr (inr (inr (inr (inr (inr (inr (inr (inr (inr (inr (inl tt)))))))))))))) /\
  test_ber_back de_unit_enum_X_a de_unit_enum_X_d de_unit_enum_X_p (inr (inr (inr (inr (inr (inr (inr (inr (inr (inr (inr (inr (inl tt))))))))))))) = Some (Ok (inr (inr (inr (inr (inr (inr (inr (inr (inr (inr (inr (inr (inl tt)))))))))))))).
Proof. conforms. Qed.
(** line 205 *)
Example de_unit_enum_test_xo : test_der_back de_unit_enum_X_a de_unit_enum_X_d de_unit_enum_X_p (inr (inr (inr (inr (inr (inr (inr (inr (inr (inr (inr (inr (inr (inl tt)))))))))))))) = Some (Ok (inr (inr (inr (inr (inr (inr (inr (inr (inr (inr (inr (inr (inr (inl tt))))))))))))))) /\
  test_ber_back de_unit_enum_X_a de_unit_enum_X_d de_unit_enum_X_p (inr (inr (inr (inr (inr (inr (inr (inr (inr (inr (inr (inr (inr (inl tt)))))))))))))) = Some (Ok (inr (inr (inr (inr (inr (inr (inr (inr (inr (inr (inr (inr (inr (inl tt))))))))))))))).
Proof. conforms. Qed.
(** line 215 *)
Example de_unit_enum_test_xp : test_der_back de_unit_enum_X_a de_unit_enum_X_d de_unit_enum_X_p (inr (inr (inr (inr (inr (inr (inr (inr (inr (inr (inr (inr (inr (inr (inl tt))))))))))))))) = Some (Ok (inr (inr (inr (inr (inr (inr (inr (inr (inr (inr (inr (inr (inr (inr (inl tt)))))))))))))))) /\
  test_ber_back de_unit_enum_X_a de_unit_enum_X_d de_unit_enum_X_p (inr (inr (inr (inr (inr (inr (inr (inr (inr (inr (inr (inr (inr (inr (inl tt))))))))))))))) = Some (Ok (inr (inr (inr (inr (inr (inr (inr (inr (inr (inr (inr (inr (inr (inr (inl tt)))))))))))))))).
Proof. conforms. Qed.
(** line 225 *)
Example de_unit_enum_test_xq : test_der_back de_unit_enum_X_a de_unit_enum_X_d de_unit_enum_X_p (inr (inr (inr (inr (inr (inr (inr (inr (inr (inr (inr (inr (inr (inr (inr (inl tt)))))))))))))))) = Some (Ok (inr (inr (inr (inr (inr (inr (inr (inr (inr (inr (inr (inr (inr (inr (inr (inl tt))))))))))))))))) /\
  test_ber_back de_unit_enum_X_a de_unit_enum_X_d de_unit_enum_X_p (inr (inr (inr (inr (inr (inr (inr (inr (inr (inr (inr (inr (inr (inr (inr (inl tt)))))))))))))))) = Some (Ok (inr (inr (inr (inr (inr (inr (inr (inr (inr (inr (inr (inr (inr (inr (inr (inl tt))))))))))))))))).
Proof. conforms. Qed.

(** tests/de/tuple_enum.rs *)
Definition de_tuple_enum_X_T : list (list Type) := [[]; [Z : Type; list N : Type]; [Z : Type; list N : Type]; [Z : Type; list N : Type]; [Z : Type; list N : Type]; [Z : Type; list N : Type]; [Z : Type; list N : Type]; [Z : Type; list N : Type]; [Z : Type; list N : Type]; [Z : Type; list N : Type]; [Z : Type; list N : Type]; [Z : Type; list N : Type]; [Z : Type; list N : Type]].
Definition de_tuple_enum_X_d : data := DEnum de_tuple_enum_X_T ({| vd_attrs := []; vd_fields := tt : hlist field_decl [] |}, ({| vd_attrs := [Some [TIdent "id"; TPunct "="; TIdent "OctetString"]]; vd_fields := (fld [] (int_n I32) 1, (fld [] (string_n) 2, tt)) : hlist field_decl [Z : Type; list N : Type] |}, ({| vd_attrs := [Some [TIdent "tag_class"; TPunct "="; TIdent "APPLICATION"]]; vd_fields := (fld [] (int_n I32) 1, (fld [] (string_n) 2, tt)) : hlist field_decl [Z : Type; list N : Type] |}, ({| vd_attrs := [Some [TIdent "tag_class"; TPunct "="; TIdent "APPLICATION"; TPunct ","; TIdent "id"; TPunct "="; TIdent "OctetString"]]; vd_fields := (fld [] (int_n I32) 1, (fld [] (string_n) 2, tt)) : hlist field_decl [Z : Type; list N : Type] |}, ({| vd_attrs := [Some [TIdent "tag_pc"; TPunct "="; TIdent "PRIMITIVE"]]; vd_fields := (fld [] (int_n I32) 1, (fld [] (string_n) 2, tt)) : hlist field_decl [Z : Type; list N : Type] |}, ({| vd_attrs := [Some [TIdent "tag_num"; TPunct "="; TLiteral "0"]]; vd_fields := (fld [] (int_n I32) 1, (fld [] (string_n) 2, tt)) : hlist field_decl [Z : Type; list N : Type] |}, ({| vd_attrs := [Some [TIdent "tag_num"; TPunct "="; TLiteral "1"; TPunct ","; TIdent "id"; TPunct "="; TIdent "OctetString"]]; vd_fields := (fld [] (int_n I32) 1, (fld [] (string_n) 2, tt)) : hlist field_decl [Z : Type; list N : Type] |}, ({| vd_attrs := [Some [TIdent "tag_num"; TPunct "="; TLiteral "0x1e"; TPunct ","; TIdent "tag_class"; TPunct "="; TIdent "APPLICATION"]]; vd_fields := (fld [] (int_n I32) 1, (fld [] (string_n) 2, tt)) : hlist field_decl [Z : Type; list N : Type] |}, ({| vd_attrs := [Some [TIdent "tag_num"; TPunct "="; TLiteral "0x1f"; TPunct ","; TIdent "tag_class"; TPunct "="; TIdent "APPLICATION"; TPunct ","; TIdent "id"; TPunct "="; TIdent "OctetString"]]; vd_fields := (fld [] (int_n I32) 1, (fld [] (string_n) 2, tt)) : hlist field_decl [Z : Type; list N : Type] |}, ({| vd_attrs := [Some [TIdent "tag_num"; TPunct "="; TLiteral "0x7f"; TPunct ","; TIdent "tag_pc"; TPunct "="; TIdent "PRIMITIVE"]]; vd_fields := (fld [] (int_n I32) 1, (fld [] (string_n) 2, tt)) : hlist field_decl [Z : Type; list N : Type] |}, ({| vd_attrs := [Some [TIdent "tag_num"; TPunct "="; TLiteral "0x80"; TPunct ","; TIdent "tag_pc"; TPunct "="; TIdent "PRIMITIVE"; TPunct ","; TIdent "id"; TPunct "="; TIdent "OctetString"]]; vd_fields := (fld [] (int_n I32) 1, (fld [] (string_n) 2, tt)) : hlist field_decl [Z : Type; list N : Type] |}, ({| vd_attrs := [Some [TIdent "tag_num"; TPunct "="; TLiteral "0x3fff"; TPunct ","; TIdent "tag_pc"; TPunct "="; TIdent "PRIMITIVE"; TPunct ","; TIdent "tag_class"; TPunct "="; TIdent "APPLICATION"]]; vd_fields := (fld [] (int_n I32) 1, (fld [] (string_n) 2, tt)) : hlist field_decl [Z : Type; list N : Type] |}, ({| vd_attrs := [Some [TIdent "tag_num"; TPunct "="; TLiteral "0x4000"; TPunct ","; TIdent "tag_pc"; TPunct "="; TIdent "PRIMITIVE"; TPunct ","; TIdent "tag_class"; TPunct "="; TIdent "APPLICATION"; TPunct ","; TIdent "id"; TPunct "="; TIdent "OctetString"]]; vd_fields := (fld [] (int_n I32) 1, (fld [] (string_n) 2, tt)) : hlist field_decl [Z : Type; list N : Type] |}, tt))))))))))))).
Definition de_tuple_enum_X_a : list syn_attribute := [].
Definition de_tuple_enum_X_p : paths (value de_tuple_enum_X_d) := no_paths _.
(** line 85 *)
Example de_tuple_enum_test_xa : test_der_back de_tuple_enum_X_a de_tuple_enum_X_d de_tuple_enum_X_p (inl tt) = Some (Ok (inl tt)) /\
  test_ber_back de_tuple_enum_X_a de_tuple_enum_X_d de_tuple_enum_X_p (inl tt) = Some (Ok (inl tt)).
Proof. conforms. Qed.
(** line 95 *)
Example de_tuple_enum_test_xc : test_der_back de_tuple_enum_X_a de_tuple_enum_X_d de_tuple_enum_X_p (inr (inl ((123)%Z, ([97; 98; 99], tt)))) = Some (Ok (inr (inl ((123)%Z, ([97; 98; 99], tt))))) /\
  test_ber_back de_tuple_enum_X_a de_tuple_enum_X_d de_tuple_enum_X_p (inr (inl ((123)%Z, ([97; 98; 99], tt)))) = Some (Ok (inr (inl ((123)%Z, ([97; 98; 99], tt))))).
Proof. conforms. Qed.
(** line 105 *)
Example de_tuple_enum_test_xd : test_der_back de_tuple_enum_X_a de_tuple_enum_X_d de_tuple_enum_X_p (inr (inr (inl ((123)%Z, ([97; 98; 99], tt))))) = Some (Ok (inr (inr (inl ((123)%Z, ([97; 98; 99], tt)))))) /\
  test_ber_back de_tuple_enum_X_a de_tuple_enum_X_d de_tuple_enum_X_p (inr (inr (inl ((123)%Z, ([97; 98; 99], tt))))) = Some (Ok (inr (inr (inl ((123)%Z, ([97; 98; 99], tt)))))).
Proof. conforms. Qed.
(** line 115 *)
Example de_tuple_enum_test_xe : test_der_back de_tuple_enum_X_a de_tuple_enum_X_d de_tuple_enum_X_p (inr (inr (inr (inl ((123)%Z, ([97; 98; 99], tt)))))) = Some (Ok (inr (inr (inr (inl ((123)%Z, ([97; 98; 99], tt))))))) /\
  test_ber_back de_tuple_enum_X_a de_tuple_enum_X_d de_tuple_enum_X_p (inr (inr (inr (inl ((123)%Z, ([97; 98; 99], tt)))))) = Some (Ok (inr (inr (inr (inl ((123)%Z, ([97; 98; 99], tt))))))).
Proof. conforms. Qed.
(** line 125 *)
Example de_tuple_enum_test_xf : test_der_back de_tuple_enum_X_a de_tuple_enum_X_d de_tuple_enum_X_p (inr (inr (inr (inr (inl ((123)%Z, ([97; 98; 99], tt))))))) = Some (Ok (inr (inr (inr (inr (inl ((123)%Z, ([97; 98; 99], tt)))))))) /\
  test_ber_back de_tuple_enum_X_a de_tuple_enum_X_d de_tuple_enum_X_p (inr (inr (inr (inr (inl ((123)%Z, ([97; 98; 99], tt))))))) = Some (Ok (inr (inr (inr (inr (inl ((123)%Z, ([97; 98; 99], tt)))))))).
Proof. conforms. Qed.
(** line 135 *)
Example de_tuple_enum_test_xj : test_der_back de_tuple_enum_X_a de_tuple_enum_X_d de_tuple_enum_X_p (inr (inr (inr (inr (inr (inl ((123)%Z, ([97; 98; 99], tt)))))))) = Some (Ok (inr (inr (inr (inr (inr (inl ((123)%Z, ([97; 98; 99], tt))))))))) /\
  test_ber_back de_tuple_enum_X_a de_tuple_enum_X_d de_tuple_enum_X_p (inr (inr (inr (inr (inr (inl ((123)%Z, ([97; 98; 99], tt)))))))) = Some (Ok (inr (inr (inr (inr (inr (inl ((123)%Z, ([97; 98; 99], tt))))))))).
Proof. conforms. Qed.
(** line 145 *)
Example de_tuple_enum_test_xk : test_der_back de_tuple_enum_X_a de_tuple_enum_X_d de_tuple_enum_X_p (inr (inr (inr (inr (inr (inr (inl ((123)%Z, ([97; 98; 99], tt))))))))) = Some (Ok (inr (inr (inr (inr (inr (inr (inl ((123)%Z, ([97; 98; 99], tt)))))))))) /\
  test_ber_back de_tuple_enum_X_a de_tuple_enum_X_d de_tuple_enum_X_p (inr (inr (inr (inr (inr (inr (inl ((123)%Z, ([97; 98; 99], tt))))))))) = Some (Ok (inr (inr (inr (inr (inr (inr (inl ((123)%Z, ([97; 98; 99], tt)))))))))).
Proof. conforms. Qed.
(** line 155 *)
Example de_tuple_enum_test_xl : test_der_back de_tuple_enum_X_a de_tuple_enum_X_d de_tuple_enum_X_p (inr (inr (inr (inr (inr (inr (inr (inl ((123)%Z, ([97; 98; 99], tt)))))))))) = Some (Ok (inr (inr (inr (inr (inr (inr (inr (inl ((123)%Z, ([97; 98; 99], tt))))))))))) /\
  test_ber_back de_tuple_enum_X_a de_tuple_enum_X_d de_tuple_enum_X_p (inr (inr (inr (inr (inr (inr (inr (inl ((123)%Z, ([97; 98; 99], tt)))))))))) = Some (Ok (inr (inr (inr (inr (inr (inr (inr (inl ((123)%Z, ([97; 98; 99], tt))))))))))).
Proof. conforms. Qed.
(** line 165 *)
Example de_tuple_enum_test_xm : test_der_back de_tuple_enum_X_a de_tuple_enum_X_d de_tuple_enum_X_p (inr (inr (inr (inr (inr (inr (inr (inr (inl ((123)%Z, ([97; 98; 99], tt))))))))))) = Some (Ok (inr (inr (inr (inr (inr (inr (inr (inr (inl ((123)%Z, ([97; 98; 99], tt)))))))))))) /\
  test_ber_back de_tuple_enum_X_a de_tuple_enum_X_d de_tuple_enum_X_p (inr (inr (inr (inr (inr (inr (inr (inr (inl ((123)%Z, ([97; 98; 99], tt))))))))))) = Some (Ok (inr (inr (inr (inr (inr (inr (inr (inr (inl ((123)%Z, ([97; 98; 99], tt)))))))))))).
Proof. conforms. Qed.
(** line 175 *)
Example de_tuple_enum_test_xn : test_der_back de_tuple_enum_X_a de_tuple_enum_X_d de_tuple_enum_X_p (inr (inr (inr (inr (inr (inr (inr (inr (inr (inl ((123)%Z, ([97; 98; 99], tt)))))))))))) = Some (Ok (inr (inr (inr (inr (inr (inr (inr (inr (inr (inl ((123)%Z, ([97; 98; 99], tt))))))))))))) /\
  test_ber_back de_tuple_enum_X_a de_tuple_enum_X_d de_tuple_enum_X_p (inr (inr (inr (inr (inr (inr (inr (inr (inr (inl ((123)%Z, ([97; 98; 99], tt)))))))))))) = Some (Ok (inr (inr (inr (inr (inr (inr (inr (inr (inr (inl ((123)%Z, ([97; 98; 99], tt))))))))))))).
Proof. conforms. Qed.
(** line 185 *)
Example de_tuple_enum_test_xo : test_der_back de_tuple_enum_X_a de_tuple_enum_X_d de_tuple_enum_X_p (inr (inr (inr (inr (inr (inr (inr (inr (inr (inr (inl ((123)%Z, ([97; 98; 99], tt))))))))))))) = Some (Ok (inr (inr (inr (inr (inr (inr (inr (inr (inr (inr (inl ((123)%Z, ([97; 98; 99], tt)))))))))))))) /\
  test_ber_back de_tuple_enum_X_a de_tuple_enum_X_d de_tuple_enum_X_p (inr (inr (inr (inr (inr (inr (inr (inr (inr (inr (inl ((123)%Z, ([97; 98; 99], tt))))))))))))) = Some (Ok (inr (inr (inr (inr (inr (inr (inr (inr (inr (inr (inl ((123)%Z, ([97; 98; 99], tt)))))))))))))).
Proof. conforms. Qed.
(** line 195 *)
Example de_tuple_enum_test_xp : test_der_back de_tuple_enum_X_a de_tuple_enum_X_d de_tuple_enum_X_p (inr (inr (inr (inr (inr (inr (inr (inr (inr (inr (inr (inl ((123)%Z, ([97; 98; 99], tt)))))))))))))) = Some (Ok (inr (inr (inr (inr (inr (inr (inr (inr (inr (inr (inr (inl ((123)%Z, ([97; 98; 99], tt))))))))))))))) /\
  test_ber_back de_tuple_enum_X_a de_tuple_enum_X_d de_tuple_enum_X_p (inr (inr (inr (inr (inr (inr (inr (inr (inr (inr (inr (inl ((123)%Z, ([97; 98; 99], tt)))))))))))))) = Some (Ok (inr (inr (inr (inr (inr (inr (inr (inr (inr (inr (inr (inl ((123)%Z, ([97; 98; 99], tt))))))))))))))).
Proof. conforms. Qed.
(** line 205 *)
Example de_tuple_enum_test_xq : test_der_back de_tuple_enum_X_a de_tuple_enum_X_d de_tuple_enum_X_p (inr (inr (inr (inr (inr (inr (inr (inr (inr (inr (inr (inr (inl ((123)%Z, ([97; 98; 99], tt))))))))))))))) = Some (Ok (inr (inr (inr (inr (inr (inr (inr (inr (inr (inr (inr (inr (inl ((123)%Z, ([97; 98; 99], tt)))))))))))))))) /\
  test_ber_back de_tuple_enum_X_a de_tuple_enum_X_d de_tuple_enum_X_p (inr (inr (inr (inr (inr (inr (inr (inr (inr (inr (inr (inr (inl ((123)%Z, ([97; 98; 99], tt))))))))))))))) = Some (Ok (inr (inr (inr (inr (inr (inr (inr (inr (inr (inr (inr (inr (inl ((123)%Z, ([97; 98; 99], tt)))))))))))))))).
Proof. conforms. Qed.

(** tests/de/named_field_enum.rs *)
Definition de_named_field_enum_X_T : list (list Type) := [[]; [Z : Type; list N : Type]; [Z : Type; list N : Type]; [Z : Type; list N : Type]; [Z : Type; list N : Type]; [Z : Type; list N : Type]; [Z : Type; list N : Type]; [Z : Type; list N : Type]; [Z : Type; list N : Type]; [Z : Type; list N : Type]; [Z : Type; list N : Type]; [Z : Type; list N : Type]].
Definition de_named_field_enum_X_d : data := DEnum de_named_field_enum_X_T ({| vd_attrs := []; vd_fields := tt : hlist field_decl [] |}, ({| vd_attrs := [Some [TIdent "id"; TPunct "="; TIdent "Set"]]; vd_fields := (fld [] (int_n I32) 1, (fld [] (string_n) 2, tt)) : hlist field_decl [Z : Type; list N : Type] |}, ({| vd_attrs := [Some [TIdent "tag_class"; TPunct "="; TIdent "PRIVATE"]]; vd_fields := (fld [] (int_n I32) 1, (fld [] (string_n) 2, tt)) : hlist field_decl [Z : Type; list N : Type] |}, ({| vd_attrs := [Some [TIdent "tag_class"; TPunct "="; TIdent "PRIVATE"; TPunct ","; TIdent "id"; TPunct "="; TIdent "Set"]]; vd_fields := (fld [] (int_n I32) 1, (fld [] (string_n) 2, tt)) : hlist field_decl [Z : Type; list N : Type] |}, ({| vd_attrs := [Some [TIdent "tag_num"; TPunct "="; TLiteral "0"]]; vd_fields := (fld [] (int_n I32) 1, (fld [] (string_n) 2, tt)) : hlist field_decl [Z : Type; list N : Type] |}, ({| vd_attrs := [Some [TIdent "tag_num"; TPunct "="; TLiteral "1"; TPunct ","; TIdent "id"; TPunct "="; TIdent "Set"]]; vd_fields := (fld [] (int_n I32) 1, (fld [] (string_n) 2, tt)) : hlist field_decl [Z : Type; list N : Type] |}, ({| vd_attrs := [Some [TIdent "tag_num"; TPunct "="; TLiteral "0x1e"; TPunct ","; TIdent "tag_class"; TPunct "="; TIdent "PRIVATE"]]; vd_fields := (fld [] (int_n I32) 1, (fld [] (string_n) 2, tt)) : hlist field_decl [Z : Type; list N : Type] |}, ({| vd_attrs := [Some [TIdent "tag_num"; TPunct "="; TLiteral "0x1f"; TPunct ","; TIdent "tag_class"; TPunct "="; TIdent "PRIVATE"; TPunct ","; TIdent "id"; TPunct "="; TIdent "Set"]]; vd_fields := (fld [] (int_n I32) 1, (fld [] (string_n) 2, tt)) : hlist field_decl [Z : Type; list N : Type] |}, ({| vd_attrs := [Some [TIdent "tag_num"; TPunct "="; TLiteral "0x7f"; TPunct ","; TIdent "tag_pc"; TPunct "="; TIdent "CONSTRUCTED"]]; vd_fields := (fld [] (int_n I32) 1, (fld [] (string_n) 2, tt)) : hlist field_decl [Z : Type; list N : Type] |}, ({| vd_attrs := [Some [TIdent "tag_num"; TPunct "="; TLiteral "0x80"; TPunct ","; TIdent "tag_pc"; TPunct "="; TIdent "CONSTRUCTED"; TPunct ","; TIdent "id"; TPunct "="; TIdent "Set"]]; vd_fields := (fld [] (int_n I32) 1, (fld [] (string_n) 2, tt)) : hlist field_decl [Z : Type; list N : Type] |}, ({| vd_attrs := [Some [TIdent "tag_num"; TPunct "="; TLiteral "0x3fff"; TPunct ","; TIdent "tag_pc"; TPunct "="; TIdent "CONSTRUCTED"; TPunct ","; TIdent "tag_class"; TPunct "="; TIdent "PRIVATE"]]; vd_fields := (fld [] (int_n I32) 1, (fld [] (string_n) 2, tt)) : hlist field_decl [Z : Type; list N : Type] |}, ({| vd_attrs := [Some [TIdent "tag_num"; TPunct "="; TLiteral "0x4000"; TPunct ","; TIdent "tag_pc"; TPunct "="; TIdent "CONSTRUCTED"; TPunct ","; TIdent "tag_class"; TPunct "="; TIdent "PRIVATE"; TPunct ","; TIdent "id"; TPunct "="; TIdent "Set"]]; vd_fields := (fld [] (int_n I32) 1, (fld [] (string_n) 2, tt)) : hlist field_decl [Z : Type; list N : Type] |}, tt)))))))))))).
Definition de_named_field_enum_X_a : list syn_attribute := [].
Definition de_named_field_enum_X_p : paths (value de_named_field_enum_X_d) := no_paths _.
(** line 118 *)
Example de_named_field_enum_test_xa : test_der_back de_named_field_enum_X_a de_named_field_enum_X_d de_named_field_enum_X_p (inl tt) = Some (Ok (inl tt)) /\
  test_ber_back de_named_field_enum_X_a de_named_field_enum_X_d de_named_field_enum_X_p (inl tt) = Some (Ok (inl tt)).
Proof. conforms. Qed.
(** line 128 *)
Example de_named_field_enum_test_xc : test_der_back de_named_field_enum_X_a de_named_field_enum_X_d de_named_field_enum_X_p (inr (inl ((123)%Z, ([97; 98; 99], tt)))) = Some (Ok (inr (inl ((123)%Z, ([97; 98; 99], tt))))) /\
  test_ber_back de_named_field_enum_X_a de_named_field_enum_X_d de_named_field_enum_X_p (inr (inl ((123)%Z, ([97; 98; 99], tt)))) = Some (Ok (inr (inl ((123)%Z, ([97; 98; 99], tt))))).
Proof. conforms. Qed.
(** line 141 *)
Example de_named_field_enum_test_xd : test_der_back de_named_field_enum_X_a de_named_field_enum_X_d de_named_field_enum_X_p (inr (inr (inl ((123)%Z, ([97; 98; 99], tt))))) = Some (Ok (inr (inr (inl ((123)%Z, ([97; 98; 99], tt)))))) /\
  test_ber_back de_named_field_enum_X_a de_named_field_enum_X_d de_named_field_enum_X_p (inr (inr (inl ((123)%Z, ([97; 98; 99], tt))))) = Some (Ok (inr (inr (inl ((123)%Z, ([97; 98; 99], tt)))))).
Proof. conforms. Qed.
(** line 154 *)
Example de_named_field_enum_test_xe : test_der_back de_named_field_enum_X_a de_named_field_enum_X_d de_named_field_enum_X_p (inr (inr (inr (inl ((123)%Z, ([97; 98; 99], tt)))))) = Some (Ok (inr (inr (inr (inl ((123)%Z, ([97; 98; 99], tt))))))) /\
  test_ber_back de_named_field_enum_X_a de_named_field_enum_X_d de_named_field_enum_X_p (inr (inr (inr (inl ((123)%Z, ([97; 98; 99], tt)))))) = Some (Ok (inr (inr (inr (inl ((123)%Z, ([97; 98; 99], tt))))))).
Proof. conforms. Qed.
(** line 167 *)
Example de_named_field_enum_test_xj : test_der_back de_named_field_enum_X_a de_named_field_enum_X_d de_named_field_enum_X_p (inr (inr (inr (inr (inl ((123)%Z, ([97; 98; 99], tt))))))) = Some (Ok (inr (inr (inr (inr (inl ((123)%Z, ([97; 98; 99], tt)))))))) /\
  test_ber_back de_named_field_enum_X_a de_named_field_enum_X_d de_named_field_enum_X_p (inr (inr (inr (inr (inl ((123)%Z, ([97; 98; 99], tt))))))) = Some (Ok (inr (inr (inr (inr (inl ((123)%Z, ([97; 98; 99], tt)))))))).
Proof. conforms. Qed.
(** line 180 *)
Example de_named_field_enum_test_xk : test_der_back de_named_field_enum_X_a de_named_field_enum_X_d de_named_field_enum_X_p (inr (inr (inr (inr (inr (inl ((123)%Z, ([97; 98; 99], tt)))))))) = Some (Ok (inr (inr (inr (inr (inr (inl ((123)%Z, ([97; 98; 99], tt))))))))) /\
  test_ber_back de_named_field_enum_X_a de_named_field_enum_X_d de_named_field_enum_X_p (inr (inr (inr (inr (inr (inl ((123)%Z, ([97; 98; 99], tt)))))))) = Some (Ok (inr (inr (inr (inr (inr (inl ((123)%Z, ([97; 98; 99], tt))))))))).
Proof. conforms. Qed.
(** line 193 *)
Example de_named_field_enum_test_xl : test_der_back de_named_field_enum_X_a de_named_field_enum_X_d de_named_field_enum_X_p (inr (inr (inr (inr (inr (inr (inl ((123)%Z, ([97; 98; 99], tt))))))))) = Some (Ok (inr (inr (inr (inr (inr (inr (inl ((123)%Z, ([97; 98; 99], tt)))))))))) /\
  test_ber_back de_named_field_enum_X_a de_named_field_enum_X_d de_named_field_enum_X_p (inr (inr (inr (inr (inr (inr (inl ((123)%Z, ([97; 98; 99], tt))))))))) = Some (Ok (inr (inr (inr (inr (inr (inr (inl ((123)%Z, ([97; 98; 99], tt)))))))))).
Proof. conforms. Qed.
(** line 206 *)
Example de_named_field_enum_test_xm : test_der_back de_named_field_enum_X_a de_named_field_enum_X_d de_named_field_enum_X_p (inr (inr (inr (inr (inr (inr (inr (inl ((123)%Z, ([97; 98; 99], tt)))))))))) = Some (Ok (inr (inr (inr (inr (inr (inr (inr (inl ((123)%Z, ([97; 98; 99], tt))))))))))) /\
  test_ber_back de_named_field_enum_X_a de_named_field_enum_X_d de_named_field_enum_X_p (inr (inr (inr (inr (inr (inr (inr (inl ((123)%Z, ([97; 98; 99], tt)))))))))) = Some (Ok (inr (inr (inr (inr (inr (inr (inr (inl ((123)%Z, ([97; 98; 99], tt))))))))))).
Proof. conforms. Qed.
(** line 219 *)
Example de_named_field_enum_test_xn : test_der_back de_named_field_enum_X_a de_named_field_enum_X_d de_named_field_enum_X_p (inr (inr (inr (inr (inr (inr (inr (inr (inl ((123)%Z, ([97; 98; 99], tt))))))))))) = Some (Ok (inr (inr (inr (inr (inr (inr (inr (inr (inl ((123)%Z, ([97; 98; 99], tt)))))))))))) /\
  test_ber_back de_named_field_enum_X_a de_named_field_enum_X_d de_named_field_enum_X_p (inr (inr (inr (inr (inr (inr (inr (inr (inl ((123)%Z, ([97; 98; 99], tt))))))))))) = Some (Ok (inr (inr (inr (inr (inr (inr (inr (inr (inl ((123)%Z, ([97; 98; 99], tt)))))))))))).
Proof. conforms. Qed.
(** line 232 *)
Example de_named_field_enum_test_xo : test_der_back de_named_field_enum_X_a de_named_field_enum_X_d de_named_field_enum_X_p (inr (inr (inr (inr (inr (inr (inr (inr (inr (inl ((123)%Z, ([97; 98; 99], tt)))))))))))) = Some (Ok (inr (inr (inr (inr (inr (inr (inr (inr (inr (inl ((123)%Z, ([97; 98; 99], tt))))))))))))) /\
  test_ber_back de_named_field_enum_X_a de_named_field_enum_X_d de_named_field_enum_X_p (inr (inr (inr (inr (inr (inr (inr (inr (inr (inl ((123)%Z, ([97; 98; 99], tt)))))))))))) = Some (Ok (inr (inr (inr (inr (inr (inr (inr (inr (inr (inl ((123)%Z, ([97; 98; 99], tt))))))))))))).
Proof. conforms. Qed.
(** line 245 *)
Example de_named_field_enum_test_xp : test_der_back de_named_field_enum_X_a de_named_field_enum_X_d de_named_field_enum_X_p (inr (inr (inr (inr (inr (inr (inr (inr (inr (inr (inl ((123)%Z, ([97; 98; 99], tt))))))))))))) = Some (Ok (inr (inr (inr (inr (inr (inr (inr (inr (inr (inr (inl ((123)%Z, ([97; 98; 99], tt)))))))))))))) /\
  test_ber_back de_named_field_enum_X_a de_named_field_enum_X_d de_named_field_enum_X_p (inr (inr (inr (inr (inr (inr (inr (inr (inr (inr (inl ((123)%Z, ([97; 98; 99], tt))))))))))))) = Some (Ok (inr (inr (inr (inr (inr (inr (inr (inr (inr (inr (inl ((123)%Z, ([97; 98; 99], tt)))))))))))))).
Proof. conforms. Qed.
(** line 258 *)
Example de_named_field_enum_test_xq : test_der_back de_named_field_enum_X_a de_named_field_enum_X_d de_named_field_enum_X_p (inr (inr (inr (inr (inr (inr (inr (inr (inr (inr (inr (inl ((123)%Z, ([97; 98; 99], tt)))))))))))))) = Some (Ok (inr (inr (inr (inr (inr (inr (inr (inr (inr (inr (inr (inl ((123)%Z, ([97; 98; 99], tt))))))))))))))) /\
  test_ber_back de_named_field_enum_X_a de_named_field_enum_X_d de_named_field_enum_X_p (inr (inr (inr (inr (inr (inr (inr (inr (inr (inr (inr (inl ((123)%Z, ([97; 98; 99], tt)))))))))))))) = Some (Ok (inr (inr (inr (inr (inr (inr (inr (inr (inr (inr (inr (inl ((123)%Z, ([97; 98; 99], tt))))))))))))))).
Proof. conforms. Qed.

(** tests/de/indefinite_length.rs *)
Definition de_indefinite_length_A_T : list Type := [].
Definition de_indefinite_length_A_d : data := DStruct de_indefinite_length_A_T tt.
Definition de_indefinite_length_A_a : list syn_attribute := [].
Definition de_indefinite_length_A_p : paths (value de_indefinite_length_A_d) := no_paths _.
Definition de_indefinite_length_B_T : list Type := [Z : Type; bool : Type].
Definition de_indefinite_length_B_d : data := DStruct de_indefinite_length_B_T (fld [] (int_n I32) 1, (fld [] (bool_n) 2, tt)).
Definition de_indefinite_length_B_a : list syn_attribute := [].
Definition de_indefinite_length_B_p : paths (value de_indefinite_length_B_d) := no_paths _.
(** line 34 *)
Example de_indefinite_length_test_a : test_from_ber de_indefinite_length_A_a de_indefinite_length_A_d de_indefinite_length_A_p [48; 128; 0; 0] = Some (Ok tt).
Proof. conforms. Qed.
(** line 42 *)
Example de_indefinite_length_test_b : test_from_ber de_indefinite_length_B_a de_indefinite_length_B_d de_indefinite_length_B_p [48; 128; 2; 1; 123; 1; 1; 255; 0; 0] = Some (Ok ((123)%Z, (true, tt))).
Proof. conforms. Qed.

(** tests/de/skip.rs *)
Definition de_skip_B_T : list Type := [Z : Type].
Definition de_skip_B_d : data := DStruct de_skip_B_T (fld [Some [TIdent "skip"; TPunct ","; TIdent "skip_deserializing"; TPunct ","; TIdent "default"; TPunct "="; TLiteral """Default::default"""]] (int_n I32) 1, tt).
Definition de_skip_B_a : list syn_attribute := [None].
Definition de_skip_B_p : paths (value de_skip_B_d) := no_paths _.
Definition de_skip_C_T : list Type := [Z : Type; list N : Type].
Definition de_skip_C_d : data := DStruct de_skip_C_T (fld [Some [TIdent "skip"; TPunct ","; TIdent "default"; TPunct "="; TLiteral """two"""]] (int_n I32) 1, (fld [] (string_n) 2, tt)).
Definition de_skip_C_a : list syn_attribute := [Some [TIdent "id"; TPunct "="; TIdent "Set"]].
Definition de_skip_C_p : paths (value de_skip_C_d) := no_paths _.
Definition de_skip_D_T : list Type := [Z : Type; list N : Type].
Definition de_skip_D_d : data := DStruct de_skip_D_T (fld [] (int_n I32) 1, (fld [Some [TIdent "skip"; TPunct ","; TIdent "skip_serializing"; TPunct ","; TIdent "skip_deserializing"]] (string_n) 2, tt)).
Definition de_skip_D_a : list syn_attribute := [Some [TIdent "tag_class"; TPunct "="; TIdent "PRIVATE"]].
Definition de_skip_D_p : paths (value de_skip_D_d) := no_paths _.
Definition de_skip_E_T : list Type := [Z : Type; list N : Type; bool : Type].
Definition de_skip_E_d : data := DStruct de_skip_E_T (fld [] (int_n I32) 1, (fld [Some [TIdent "skip"; TPunct ","; TIdent "skip_serializing"; TPunct ","; TIdent "default"; TPunct "="; TLiteral """bar"""]] (string_n) 2, (fld [] (bool_n) 3, tt))).
Definition de_skip_E_a : list syn_attribute := [Some [TIdent "id"; TPunct "="; TIdent "Set"; TPunct ","; TIdent "tag_class"; TPunct "="; TIdent "PRIVATE"]].
Definition de_skip_E_p : paths (value de_skip_E_d) := no_paths _.
Definition de_skip_F_T : list Type := [Z : Type].
Definition de_skip_F_d : data := DStruct de_skip_F_T (fld [Some [TIdent "skip"; TPunct ","; TIdent "default"; TPunct "="; TLiteral """two"""]] (int_n I32) 1, tt).
Definition de_skip_F_a : list syn_attribute := [Some [TIdent "tag_pc"; TPunct "="; TIdent "PRIMITIVE"]].
Definition de_skip_F_p : paths (value de_skip_F_d) := no_paths _.
Definition de_skip_G_T : list Type := [Z : Type; list N : Type].
Definition de_skip_G_d : data := DStruct de_skip_G_T (fld [Some [TIdent "skip"; TPunct ","; TIdent "skip_deserializing"]] (int_n I32) 1, (fld [] (string_n) 2, tt)).
Definition de_skip_G_a : list syn_attribute := [Some [TIdent "id"; TPunct "="; TIdent "Set"; TPunct ","; TIdent "tag_pc"; TPunct "="; TIdent "PRIMITIVE"]].
Definition de_skip_G_p : paths (value de_skip_G_d) := no_paths _.
Definition de_skip_H_T : list Type := [Z : Type; list N : Type].
Definition de_skip_H_d : data := DStruct de_skip_H_T (fld [] (int_n I32) 1, (fld [Some [TIdent "skip"; TPunct ","; TIdent "skip_serializing"; TPunct ","; TIdent "default"; TPunct "="; TLiteral """bar"""]] (string_n) 2, tt)).
Definition de_skip_H_a : list syn_attribute := [Some [TIdent "tag_class"; TPunct "="; TIdent "PRIVATE"; TPunct ","; TIdent "tag_pc"; TPunct "="; TIdent "PRIMITIVE"]].
Definition de_skip_H_p : paths (value de_skip_H_d) := no_paths _.
Definition de_skip_I_T : list Type := [Z : Type; list N : Type; bool : Type].
Definition de_skip_I_d : data := DStruct de_skip_I_T (fld [] (int_n I32) 1, (fld [Some [TIdent "skip"; TPunct ","; TIdent "skip_serializing"; TPunct ","; TIdent "skip_deserializing"; TPunct ","; TIdent "default"; TPunct "="; TLiteral """Default::default"""]] (string_n) 2, (fld [] (bool_n) 3, tt))).
Definition de_skip_I_a : list syn_attribute := [Some [TIdent "id"; TPunct "="; TIdent "Set"; TPunct ","; TIdent "tag_class"; TPunct "="; TIdent "PRIVATE"; TPunct ","; TIdent "tag_pc"; TPunct "="; TIdent "PRIMITIVE"]].
Definition de_skip_I_p : paths (value de_skip_I_d) := no_paths _.
Definition de_skip_X_T : list (list Type) := [[Z : Type]; [Z : Type; list N : Type]; [Z : Type; list N : Type]; [Z : Type; list N : Type; bool : Type]; [Z : Type]; [Z : Type; list N : Type]; [Z : Type; list N : Type]; [Z : Type; list N : Type; bool : Type]].
Definition de_skip_X_d : data := DEnum de_skip_X_T ({| vd_attrs := [Some [TIdent "tag_num"; TPunct "="; TLiteral "0"]]; vd_fields := (fld [Some [TIdent "skip"; TPunct ","; TIdent "default"; TPunct "="; TLiteral """two"""]] (int_n I32) 1, tt) : hlist field_decl [Z : Type] |}, ({| vd_attrs := [Some [TIdent "id"; TPunct "="; TIdent "Set"; TPunct ","; TIdent "tag_num"; TPunct "="; TLiteral "1"]]; vd_fields := (fld [Some [TIdent "skip"; TPunct ","; TIdent "skip_deserializing"]] (int_n I32) 1, (fld [] (string_n) 2, tt)) : hlist field_decl [Z : Type; list N : Type] |}, ({| vd_attrs := [Some [TIdent "tag_class"; TPunct "="; TIdent "PRIVATE"; TPunct ","; TIdent "tag_num"; TPunct "="; TLiteral "0x1e"]]; vd_fields := (fld [] (int_n I32) 1, (fld [Some [TIdent "skip"; TPunct ","; TIdent "skip_serializing"; TPunct ","; TIdent "default"; TPunct "="; TLiteral """bar"""]] (string_n) 2, tt)) : hlist field_decl [Z : Type; list N : Type] |}, ({| vd_attrs := [Some [TIdent "id"; TPunct "="; TIdent "Set"; TPunct ","; TIdent "tag_class"; TPunct "="; TIdent "PRIVATE"; TPunct ","; TIdent "tag_num"; TPunct "="; TLiteral "0x1f"]]; vd_fields := (fld [] (int_n I32) 1, (fld [Some [TIdent "skip"; TPunct ","; TIdent "skip_serializing"; TPunct ","; TIdent "skip_deserializing"; TPunct ","; TIdent "default"; TPunct "="; TLiteral """Default::default"""]] (string_n) 2, (fld [] (bool_n) 3, tt))) : hlist field_decl [Z : Type; list N : Type; bool : Type] |}, ({| vd_attrs := [Some [TIdent "tag_pc"; TPunct "="; TIdent "PRIMITIVE"; TPunct ","; TIdent "tag_num"; TPunct "="; TLiteral "0x7f"]]; vd_fields := (fld [Some [TIdent "skip"; TPunct ","; TIdent "skip_deserializing"]] (int_n I32) 1, tt) : hlist field_decl [Z : Type] |}, ({| vd_attrs := [Some [TIdent "id"; TPunct "="; TIdent "Set"; TPunct ","; TIdent "tag_pc"; TPunct "="; TIdent "PRIMITIVE"; TPunct ","; TIdent "tag_num"; TPunct "="; TLiteral "0x80"]]; vd_fields := (fld [Some [TIdent "skip"; TPunct ","; TIdent "default"; TPunct "="; TLiteral """two"""]] (int_n I32) 1, (fld [] (string_n) 2, tt)) : hlist field_decl [Z : Type; list N : Type] |}, ({| vd_attrs := [Some [TIdent "tag_class"; TPunct "="; TIdent "PRIVATE"; TPunct ","; TIdent "tag_pc"; TPunct "="; TIdent "PRIMITIVE"; TPunct ","; TIdent "tag_num"; TPunct "="; TLiteral "0x3fff"]]; vd_fields := (fld [] (int_n I32) 1, (fld [Some [TIdent "skip"; TPunct ","; TIdent "skip_serializing"; TPunct ","; TIdent "skip_deserializing"; TPunct ","; TIdent "default"; TPunct "="; TLiteral """Default::default"""]] (string_n) 2, tt)) : hlist field_decl [Z : Type; list N : Type] |}, ({| vd_attrs := [Some [TIdent "id"; TPunct "="; TIdent "Set"; TPunct ","; TIdent "tag_class"; TPunct "="; TIdent "PRIVATE"; TPunct ","; TIdent "tag_pc"; TPunct "="; TIdent "PRIMITIVE"; TPunct ","; TIdent "tag_num"; TPunct "="; TLiteral "0x4000"]]; vd_fields := (fld [] (int_n I32) 1, (fld [Some [TIdent "skip"; TPunct ","; TIdent "skip_serializing"; TPunct ","; TIdent "default"; TPunct "="; TLiteral """bar"""]] (string_n) 2, (fld [] (bool_n) 3, tt))) : hlist field_decl [Z : Type; list N : Type; bool : Type] |}, tt)))))))).
Definition de_skip_X_a : list syn_attribute := [].
Definition de_skip_X_p : paths (value de_skip_X_d) := no_paths _.
(** line 165 *)
Example de_skip_test_b : test_der_back de_skip_B_a de_skip_B_d de_skip_B_p ((0)%Z, tt) = Some (Ok ((0)%Z, tt)) /\
  test_ber_back de_skip_B_a de_skip_B_d de_skip_B_p ((0)%Z, tt) = Some (Ok ((0)%Z, tt)).
Proof. conforms. Qed.
(** line 176 *)
Example de_skip_test_c : test_der_back de_skip_C_a de_skip_C_d de_skip_C_p ((1)%Z, ([102; 111; 111], tt)) = Some (Ok ((2)%Z, ([102; 111; 111], tt))) /\
  test_ber_back de_skip_C_a de_skip_C_d de_skip_C_p ((1)%Z, ([102; 111; 111], tt)) = Some (Ok ((2)%Z, ([102; 111; 111], tt))).
Proof. conforms. Qed.
(** line 193 *)
Example de_skip_test_d : test_der_back de_skip_D_a de_skip_D_d de_skip_D_p ((0)%Z, ([], tt)) = Some (Ok ((0)%Z, ([], tt))) /\
  test_ber_back de_skip_D_a de_skip_D_d de_skip_D_p ((0)%Z, ([], tt)) = Some (Ok ((0)%Z, ([], tt))).
Proof. conforms. Qed.
(** line 210 *)
Example de_skip_test_e : test_der_back de_skip_E_a de_skip_E_d de_skip_E_p ((1)%Z, ([102; 111; 111], (true, tt))) = Some (Ok ((1)%Z, ([98; 97; 114], (true, tt)))) /\
  test_ber_back de_skip_E_a de_skip_E_d de_skip_E_p ((1)%Z, ([102; 111; 111], (true, tt))) = Some (Ok ((1)%Z, ([98; 97; 114], (true, tt)))).
Proof. conforms. Qed.
(** line 229 *)
Example de_skip_test_f : test_der_back de_skip_F_a de_skip_F_d de_skip_F_p ((1)%Z, tt) = Some (Ok ((2)%Z, tt)) /\
  test_ber_back de_skip_F_a de_skip_F_d de_skip_F_p ((1)%Z, tt) = Some (Ok ((2)%Z, tt)).
Proof. conforms. Qed.
(** line 240 *)
Example de_skip_test_g : test_der_back de_skip_G_a de_skip_G_d de_skip_G_p ((0)%Z, ([], tt)) = Some (Ok ((0)%Z, ([], tt))) /\
  test_ber_back de_skip_G_a de_skip_G_d de_skip_G_p ((0)%Z, ([], tt)) = Some (Ok ((0)%Z, ([], tt))).
Proof. conforms. Qed.
(** line 251 *)
Example de_skip_test_h : test_der_back de_skip_H_a de_skip_H_d de_skip_H_p ((1)%Z, ([102; 111; 111], tt)) = Some (Ok ((1)%Z, ([98; 97; 114], tt))) /\
  test_ber_back de_skip_H_a de_skip_H_d de_skip_H_p ((1)%Z, ([102; 111; 111], tt)) = Some (Ok ((1)%Z, ([98; 97; 114], tt))).
Proof. conforms. Qed.
(** line 262 *)
Example de_skip_test_i : test_der_back de_skip_I_a de_skip_I_d de_skip_I_p ((0)%Z, ([], (false, tt))) = Some (Ok ((0)%Z, ([], (false, tt)))) /\
  test_ber_back de_skip_I_a de_skip_I_d de_skip_I_p ((0)%Z, ([], (false, tt))) = Some (Ok ((0)%Z, ([], (false, tt)))).
Proof. conforms. Qed.
(** line 273 *)
Example de_skip_test_xj : test_der_back de_skip_X_a de_skip_X_d de_skip_X_p (inl ((0)%Z, tt)) = Some (Ok (inl ((2)%Z, tt))) /\
  test_ber_back de_skip_X_a de_skip_X_d de_skip_X_p (inl ((0)%Z, tt)) = Some (Ok (inl ((2)%Z, tt))).
Proof. conforms. Qed.
(** line 284 *)
Example de_skip_test_xk : test_der_back de_skip_X_a de_skip_X_d de_skip_X_p (inr (inl ((1)%Z, ([102; 111; 111], tt)))) = Some (Ok (inr (inl ((0)%Z, ([102; 111; 111], tt))))) /\
  test_ber_back de_skip_X_a de_skip_X_d de_skip_X_p (inr (inl ((1)%Z, ([102; 111; 111], tt)))) = Some (Ok (inr (inl ((0)%Z, ([102; 111; 111], tt))))).
Proof. conforms. Qed.
(** line 301 *)
Example de_skip_test_xl : test_der_back de_skip_X_a de_skip_X_d de_skip_X_p (inr (inr (inl ((0)%Z, ([], tt))))) = Some (Ok (inr (inr (inl ((0)%Z, ([98; 97; 114], tt)))))) /\
  test_ber_back de_skip_X_a de_skip_X_d de_skip_X_p (inr (inr (inl ((0)%Z, ([], tt))))) = Some (Ok (inr (inr (inl ((0)%Z, ([98; 97; 114], tt)))))).
Proof. conforms. Qed.
(** line 318 *)
Example de_skip_test_xm : test_der_back de_skip_X_a de_skip_X_d de_skip_X_p (inr (inr (inr (inl ((1)%Z, ([102; 111; 111], (true, tt))))))) = Some (Ok (inr (inr (inr (inl ((1)%Z, ([], (true, tt)))))))) /\
  test_ber_back de_skip_X_a de_skip_X_d de_skip_X_p (inr (inr (inr (inl ((1)%Z, ([102; 111; 111], (true, tt))))))) = Some (Ok (inr (inr (inr (inl ((1)%Z, ([], (true, tt)))))))).
Proof. conforms. Qed.
(** line 337 *)
Example de_skip_test_xn : test_der_back de_skip_X_a de_skip_X_d de_skip_X_p (inr (inr (inr (inr (inl ((1)%Z, tt)))))) = Some (Ok (inr (inr (inr (inr (inl ((0)%Z, tt))))))) /\
  test_ber_back de_skip_X_a de_skip_X_d de_skip_X_p (inr (inr (inr (inr (inl ((1)%Z, tt)))))) = Some (Ok (inr (inr (inr (inr (inl ((0)%Z, tt))))))).
Proof. conforms. Qed.
(** line 348 *)
Example de_skip_test_xo : test_der_back de_skip_X_a de_skip_X_d de_skip_X_p (inr (inr (inr (inr (inr (inl ((0)%Z, ([], tt)))))))) = Some (Ok (inr (inr (inr (inr (inr (inl ((2)%Z, ([], tt))))))))) /\
  test_ber_back de_skip_X_a de_skip_X_d de_skip_X_p (inr (inr (inr (inr (inr (inl ((0)%Z, ([], tt)))))))) = Some (Ok (inr (inr (inr (inr (inr (inl ((2)%Z, ([], tt))))))))).
Proof. conforms. Qed.
(** line 359 *)
Example de_skip_test_xp : test_der_back de_skip_X_a de_skip_X_d de_skip_X_p (inr (inr (inr (inr (inr (inr (inl ((1)%Z, ([102; 111; 111], tt))))))))) = Some (Ok (inr (inr (inr (inr (inr (inr (inl ((1)%Z, ([], tt)))))))))) /\
  test_ber_back de_skip_X_a de_skip_X_d de_skip_X_p (inr (inr (inr (inr (inr (inr (inl ((1)%Z, ([102; 111; 111], tt))))))))) = Some (Ok (inr (inr (inr (inr (inr (inr (inl ((1)%Z, ([], tt)))))))))).
Proof. conforms. Qed.
(** line 370 *)
Example de_skip_test_xq : test_der_back de_skip_X_a de_skip_X_d de_skip_X_p (inr (inr (inr (inr (inr (inr (inr (inl ((0)%Z, ([], (false, tt))))))))))) = Some (Ok (inr (inr (inr (inr (inr (inr (inr (inl ((0)%Z, ([98; 97; 114], (false, tt)))))))))))) /\
  test_ber_back de_skip_X_a de_skip_X_d de_skip_X_p (inr (inr (inr (inr (inr (inr (inr (inl ((0)%Z, ([], (false, tt))))))))))) = Some (Ok (inr (inr (inr (inr (inr (inr (inr (inl ((0)%Z, ([98; 97; 114], (false, tt)))))))))))).
Proof. conforms. Qed.

(** tests/de/skip_deserializing.rs *)
Definition de_skip_deserializing_B_T : list Type := [Z : Type].
Definition de_skip_deserializing_B_d : data := DStruct de_skip_deserializing_B_T (fld [Some [TIdent "skip_serializing"; TPunct ","; TIdent "skip_deserializing"]] (int_n I32) 1, tt).
Definition de_skip_deserializing_B_a : list syn_attribute := [None].
Definition de_skip_deserializing_B_p : paths (value de_skip_deserializing_B_d) := no_paths _.
Definition de_skip_deserializing_C_T : list Type := [Z : Type; list N : Type].
Definition de_skip_deserializing_C_d : data := DStruct de_skip_deserializing_C_T (fld [Some [TIdent "skip_serializing"; TPunct ","; TIdent "skip_deserializing"]] (int_n I32) 1, (fld [] (string_n) 2, tt)).
Definition de_skip_deserializing_C_a : list syn_attribute := [Some [TIdent "id"; TPunct "="; TIdent "Set"]].
Definition de_skip_deserializing_C_p : paths (value de_skip_deserializing_C_d) := no_paths _.
Definition de_skip_deserializing_D_T : list Type := [Z : Type; list N : Type].
Definition de_skip_deserializing_D_d : data := DStruct de_skip_deserializing_D_T (fld [] (int_n I32) 1, (fld [Some [TIdent "skip_serializing"; TPunct ","; TIdent "skip_deserializing"]] (string_n) 2, tt)).
Definition de_skip_deserializing_D_a : list syn_attribute := [Some [TIdent "tag_class"; TPunct "="; TIdent "PRIVATE"]].
Definition de_skip_deserializing_D_p : paths (value de_skip_deserializing_D_d) := no_paths _.
Definition de_skip_deserializing_E_T : list Type := [Z : Type; list N : Type; bool : Type].
Definition de_skip_deserializing_E_d : data := DStruct de_skip_deserializing_E_T (fld [] (int_n I32) 1, (fld [Some [TIdent "skip_serializing"; TPunct ","; TIdent "skip_deserializing"]] (string_n) 2, (fld [] (bool_n) 3, tt))).
Definition de_skip_deserializing_E_a : list syn_attribute := [Some [TIdent "id"; TPunct "="; TIdent "Set"; TPunct ","; TIdent "tag_class"; TPunct "="; TIdent "PRIVATE"]].
Definition de_skip_deserializing_E_p : paths (value de_skip_deserializing_E_d) := no_paths _.
Definition de_skip_deserializing_F_T : list Type := [Z : Type].
Definition de_skip_deserializing_F_d : data := DStruct de_skip_deserializing_F_T (fld [Some [TIdent "skip_serializing"; TPunct ","; TIdent "skip_deserializing"]] (int_n I32) 1, tt).
Definition de_skip_deserializing_F_a : list syn_attribute := [Some [TIdent "tag_pc"; TPunct "="; TIdent "PRIMITIVE"]].
Definition de_skip_deserializing_F_p : paths (value de_skip_deserializing_F_d) := no_paths _.
Definition de_skip_deserializing_G_T : list Type := [Z : Type; list N : Type].
Definition de_skip_deserializing_G_d : data := DStruct de_skip_deserializing_G_T (fld [Some [TIdent "skip_serializing"; TPunct ","; TIdent "skip_deserializing"]] (int_n I32) 1, (fld [] (string_n) 2, tt)).
Definition de_skip_deserializing_G_a : list syn_attribute := [Some [TIdent "id"; TPunct "="; TIdent "Set"; TPunct ","; TIdent "tag_pc"; TPunct "="; TIdent "PRIMITIVE"]].
Definition de_skip_deserializing_G_p : paths (value de_skip_deserializing_G_d) := no_paths _.
Definition de_skip_deserializing_H_T : list Type := [Z : Type; list N : Type].
Definition de_skip_deserializing_H_d : data := DStruct de_skip_deserializing_H_T (fld [] (int_n I32) 1, (fld [Some [TIdent "skip_serializing"; TPunct ","; TIdent "skip_deserializing"]] (string_n) 2, tt)).
Definition de_skip_deserializing_H_a : list syn_attribute := [Some [TIdent "tag_class"; TPunct "="; TIdent "PRIVATE"; TPunct ","; TIdent "tag_pc"; TPunct "="; TIdent "PRIMITIVE"]].
Definition de_skip_deserializing_H_p : paths (value de_skip_deserializing_H_d) := no_paths _.
Definition de_skip_deserializing_I_T : list Type := [Z : Type; list N : Type; bool : Type].
Definition de_skip_deserializing_I_d : data := DStruct de_skip_deserializing_I_T (fld [] (int_n I32) 1, (fld [Some [TIdent "skip_serializing"; TPunct ","; TIdent "skip_deserializing"]] (string_n) 2, (fld [] (bool_n) 3, tt))).
Definition de_skip_deserializing_I_a : list syn_attribute := [Some [TIdent "id"; TPunct "="; TIdent "Set"; TPunct ","; TIdent "tag_class"; TPunct "="; TIdent "PRIVATE"; TPunct ","; TIdent "tag_pc"; TPunct "="; TIdent "PRIMITIVE"]].
Definition de_skip_deserializing_I_p : paths (value de_skip_deserializing_I_d) := no_paths _.
Definition de_skip_deserializing_X_T : list (list Type) := [[Z : Type]; [Z : Type; list N : Type]; [Z : Type; list N : Type]; [Z : Type; list N : Type; bool : Type]; [Z : Type]; [Z : Type; list N : Type]; [Z : Type; list N : Type]; [Z : Type; list N : Type; bool : Type]].
Definition de_skip_deserializing_X_d : data := DEnum de_skip_deserializing_X_T ({| vd_attrs := [Some [TIdent "tag_num"; TPunct "="; TLiteral "0"]]; vd_fields := (fld [Some [TIdent "skip_serializing"; TPunct ","; TIdent "skip_deserializing"]] (int_n I32) 1, tt) : hlist field_decl [Z : Type] |}, ({| vd_attrs := [Some [TIdent "id"; TPunct "="; TIdent "Set"; TPunct ","; TIdent "tag_num"; TPunct "="; TLiteral "1"]]; vd_fields := (fld [Some [TIdent "skip_serializing"; TPunct ","; TIdent "skip_deserializing"]] (int_n I32) 1, (fld [] (string_n) 2, tt)) : hlist field_decl [Z : Type; list N : Type] |}, ({| vd_attrs := [Some [TIdent "tag_class"; TPunct "="; TIdent "PRIVATE"; TPunct ","; TIdent "tag_num"; TPunct "="; TLiteral "0x1e"]]; vd_fields := (fld [] (int_n I32) 1, (fld [Some [TIdent "skip_serializing"; TPunct ","; TIdent "skip_deserializing"]] (string_n) 2, tt)) : hlist field_decl [Z : Type; list N : Type] |}, ({| vd_attrs := [Some [TIdent "id"; TPunct "="; TIdent "Set"; TPunct ","; TIdent "tag_class"; TPunct "="; TIdent "PRIVATE"; TPunct ","; TIdent "tag_num"; TPunct "="; TLiteral "0x1f"]]; vd_fields := (fld [] (int_n I32) 1, (fld [Some [TIdent "skip_serializing"; TPunct ","; TIdent "skip_deserializing"]] (string_n) 2, (fld [] (bool_n) 3, tt))) : hlist field_decl [Z : Type; list N : Type; bool : Type] |}, ({| vd_attrs := [Some [TIdent "tag_pc"; TPunct "="; TIdent "PRIMITIVE"; TPunct ","; TIdent "tag_num"; TPunct "="; TLiteral "0x7f"]]; vd_fields := (fld [Some [TIdent "skip_serializing"; TPunct ","; TIdent "skip_deserializing"]] (int_n I32) 1, tt) : hlist field_decl [Z : Type] |}, ({| vd_attrs := [Some [TIdent "id"; TPunct "="; TIdent "Set"; TPunct ","; TIdent "tag_pc"; TPunct "="; TIdent "PRIMITIVE"; TPunct ","; TIdent "tag_num"; TPunct "="; TLiteral "0x80"]]; vd_fields := (fld [Some [TIdent "skip_serializing"; TPunct ","; TIdent "skip_deserializing"]] (int_n I32) 1, (fld [] (string_n) 2, tt)) : hlist field_decl [Z : Type; list N : Type] |}, ({| vd_attrs := [Some [TIdent "tag_class"; TPunct "="; TIdent "PRIVATE"; TPunct ","; TIdent "tag_pc"; TPunct "="; TIdent "PRIMITIVE"; TPunct ","; TIdent "tag_num"; TPunct "="; TLiteral "0x3fff"]]; vd_fields := (fld [] (int_n I32) 1, (fld [Some [TIdent "skip_serializing"; TPunct ","; TIdent "skip_deserializing"]] (string_n) 2, tt)) : hlist field_decl [Z : Type; list N : Type] |}, ({| vd_attrs := [Some [TIdent "id"; TPunct "="; TIdent "Set"; TPunct ","; TIdent "tag_class"; TPunct "="; TIdent "PRIVATE"; TPunct ","; TIdent "tag_pc"; TPunct "="; TIdent "PRIMITIVE"; TPunct ","; TIdent "tag_num"; TPunct "="; TLiteral "0x4000"]]; vd_fields := (fld [] (int_n I32) 1, (fld [Some [TIdent "skip_serializing"; TPunct ","; TIdent "skip_deserializing"]] (string_n) 2, (fld [] (bool_n) 3, tt))) : hlist field_decl [Z : Type; list N : Type; bool : Type] |}, tt)))))))).
Definition de_skip_deserializing_X_a : list syn_attribute := [].
Definition de_skip_deserializing_X_p : paths (value de_skip_deserializing_X_d) := no_paths _.
(** line 146 *)
Example de_skip_deserializing_test_b : test_der_back de_skip_deserializing_B_a de_skip_deserializing_B_d de_skip_deserializing_B_p ((0)%Z, tt) = Some (Ok ((0)%Z, tt)) /\
  test_ber_back de_skip_deserializing_B_a de_skip_deserializing_B_d de_skip_deserializing_B_p ((0)%Z, tt) = Some (Ok ((0)%Z, tt)).
Proof. conforms. Qed.
(** line 157 *)
Example de_skip_deserializing_test_c : test_der_back de_skip_deserializing_C_a de_skip_deserializing_C_d de_skip_deserializing_C_p ((1)%Z, ([102; 111; 111], tt)) = Some (Ok ((0)%Z, ([102; 111; 111], tt))) /\
  test_ber_back de_skip_deserializing_C_a de_skip_deserializing_C_d de_skip_deserializing_C_p ((1)%Z, ([102; 111; 111], tt)) = Some (Ok ((0)%Z, ([102; 111; 111], tt))).
Proof. conforms. Qed.
(** line 174 *)
Example de_skip_deserializing_test_d : test_der_back de_skip_deserializing_D_a de_skip_deserializing_D_d de_skip_deserializing_D_p ((0)%Z, ([], tt)) = Some (Ok ((0)%Z, ([], tt))) /\
  test_ber_back de_skip_deserializing_D_a de_skip_deserializing_D_d de_skip_deserializing_D_p ((0)%Z, ([], tt)) = Some (Ok ((0)%Z, ([], tt))).
Proof. conforms. Qed.
(** line 191 *)
Example de_skip_deserializing_test_e : test_der_back de_skip_deserializing_E_a de_skip_deserializing_E_d de_skip_deserializing_E_p ((1)%Z, ([102; 111; 111], (true, tt))) = Some (Ok ((1)%Z, ([], (true, tt)))) /\
  test_ber_back de_skip_deserializing_E_a de_skip_deserializing_E_d de_skip_deserializing_E_p ((1)%Z, ([102; 111; 111], (true, tt))) = Some (Ok ((1)%Z, ([], (true, tt)))).
Proof. conforms. Qed.
(** line 210 *)
Example de_skip_deserializing_test_f : test_der_back de_skip_deserializing_F_a de_skip_deserializing_F_d de_skip_deserializing_F_p ((1)%Z, tt) = Some (Ok ((0)%Z, tt)) /\
  test_ber_back de_skip_deserializing_F_a de_skip_deserializing_F_d de_skip_deserializing_F_p ((1)%Z, tt) = Some (Ok ((0)%Z, tt)).
Proof. conforms. Qed.
(** line 221 *)
Example de_skip_deserializing_test_g : test_der_back de_skip_deserializing_G_a de_skip_deserializing_G_d de_skip_deserializing_G_p ((0)%Z, ([], tt)) = Some (Ok ((0)%Z, ([], tt))) /\
  test_ber_back de_skip_deserializing_G_a de_skip_deserializing_G_d de_skip_deserializing_G_p ((0)%Z, ([], tt)) = Some (Ok ((0)%Z, ([], tt))).
Proof. conforms. Qed.
(** line 232 *)
Example de_skip_deserializing_test_h : test_der_back de_skip_deserializing_H_a de_skip_deserializing_H_d de_skip_deserializing_H_p ((1)%Z, ([102; 111; 111], tt)) = Some (Ok ((1)%Z, ([], tt))) /\
  test_ber_back de_skip_deserializing_H_a de_skip_deserializing_H_d de_skip_deserializing_H_p ((1)%Z, ([102; 111; 111], tt)) = Some (Ok ((1)%Z, ([], tt))).
Proof. conforms. Qed.
(** line 243 *)
Example de_skip_deserializing_test_i : test_der_back de_skip_deserializing_I_a de_skip_deserializing_I_d de_skip_deserializing_I_p ((0)%Z, ([], (false, tt))) = Some (Ok ((0)%Z, ([], (false, tt)))) /\
  test_ber_back de_skip_deserializing_I_a de_skip_deserializing_I_d de_skip_deserializing_I_p ((0)%Z, ([], (false, tt))) = Some (Ok ((0)%Z, ([], (false, tt)))).
Proof. conforms. Qed.
(** line 254 *)
Example de_skip_deserializing_test_xj : test_der_back de_skip_deserializing_X_a de_skip_deserializing_X_d de_skip_deserializing_X_p (inl ((0)%Z, tt)) = Some (Ok (inl ((0)%Z, tt))) /\
  test_ber_back de_skip_deserializing_X_a de_skip_deserializing_X_d de_skip_deserializing_X_p (inl ((0)%Z, tt)) = Some (Ok (inl ((0)%Z, tt))).
Proof. conforms. Qed.
(** line 265 *)
Example de_skip_deserializing_test_xk : test_der_back de_skip_deserializing_X_a de_skip_deserializing_X_d de_skip_deserializing_X_p (inr (inl ((1)%Z, ([102; 111; 111], tt)))) = Some (Ok (inr (inl ((0)%Z, ([102; 111; 111], tt))))) /\
  test_ber_back de_skip_deserializing_X_a de_skip_deserializing_X_d de_skip_deserializing_X_p (inr (inl ((1)%Z, ([102; 111; 111], tt)))) = Some (Ok (inr (inl ((0)%Z, ([102; 111; 111], tt))))).
Proof. conforms. Qed.
(** line 282 *)
Example de_skip_deserializing_test_xl : test_der_back de_skip_deserializing_X_a de_skip_deserializing_X_d de_skip_deserializing_X_p (inr (inr (inl ((0)%Z, ([], tt))))) = Some (Ok (inr (inr (inl ((0)%Z, ([], tt)))))) /\
  test_ber_back de_skip_deserializing_X_a de_skip_deserializing_X_d de_skip_deserializing_X_p (inr (inr (inl ((0)%Z, ([], tt))))) = Some (Ok (inr (inr (inl ((0)%Z, ([], tt)))))).
Proof. conforms. Qed.
(** line 299 *)
Example de_skip_deserializing_test_xm : test_der_back de_skip_deserializing_X_a de_skip_deserializing_X_d de_skip_deserializing_X_p (inr (inr (inr (inl ((1)%Z, ([102; 111; 111], (true, tt))))))) = Some (Ok (inr (inr (inr (inl ((1)%Z, ([], (true, tt)))))))) /\
  test_ber_back de_skip_deserializing_X_a de_skip_deserializing_X_d de_skip_deserializing_X_p (inr (inr (inr (inl ((1)%Z, ([102; 111; 111], (true, tt))))))) = Some (Ok (inr (inr (inr (inl ((1)%Z, ([], (true, tt)))))))).
Proof. conforms. Qed.
(** line 318 *)
Example de_skip_deserializing_test_xn : test_der_back de_skip_deserializing_X_a de_skip_deserializing_X_d de_skip_deserializing_X_p (inr (inr (inr (inr (inl ((1)%Z, tt)))))) = Some (Ok (inr (inr (inr (inr (inl ((0)%Z, tt))))))) /\
  test_ber_back de_skip_deserializing_X_a de_skip_deserializing_X_d de_skip_deserializing_X_p (inr (inr (inr (inr (inl ((1)%Z, tt)))))) = Some (Ok (inr (inr (inr (inr (inl ((0)%Z, tt))))))).
Proof. conforms. Qed.
(** line 329 *)
Example de_skip_deserializing_test_xo : test_der_back de_skip_deserializing_X_a de_skip_deserializing_X_d de_skip_deserializing_X_p (inr (inr (inr (inr (inr (inl ((0)%Z, ([], tt)))))))) = Some (Ok (inr (inr (inr (inr (inr (inl ((0)%Z, ([], tt))))))))) /\
  test_ber_back de_skip_deserializing_X_a de_skip_deserializing_X_d de_skip_deserializing_X_p (inr (inr (inr (inr (inr (inl ((0)%Z, ([], tt)))))))) = Some (Ok (inr (inr (inr (inr (inr (inl ((0)%Z, ([], tt))))))))).
Proof. conforms. Qed.
(** line 340 *)
Example de_skip_deserializing_test_xp : test_der_back de_skip_deserializing_X_a de_skip_deserializing_X_d de_skip_deserializing_X_p (inr (inr (inr (inr (inr (inr (inl ((1)%Z, ([102; 111; 111], tt))))))))) = Some (Ok (inr (inr (inr (inr (inr (inr (inl ((1)%Z, ([], tt)))))))))) /\
  test_ber_back de_skip_deserializing_X_a de_skip_deserializing_X_d de_skip_deserializing_X_p (inr (inr (inr (inr (inr (inr (inl ((1)%Z, ([102; 111; 111], tt))))))))) = Some (Ok (inr (inr (inr (inr (inr (inr (inl ((1)%Z, ([], tt)))))))))).
Proof. conforms. Qed.
(** line 351 *)
Example de_skip_deserializing_test_xq : test_der_back de_skip_deserializing_X_a de_skip_deserializing_X_d de_skip_deserializing_X_p (inr (inr (inr (inr (inr (inr (inr (inl ((0)%Z, ([], (false, tt))))))))))) = Some (Ok (inr (inr (inr (inr (inr (inr (inr (inl ((0)%Z, ([], (false, tt)))))))))))) /\
  test_ber_back de_skip_deserializing_X_a de_skip_deserializing_X_d de_skip_deserializing_X_p (inr (inr (inr (inr (inr (inr (inr (inl ((0)%Z, ([], (false, tt))))))))))) = Some (Ok (inr (inr (inr (inr (inr (inr (inr (inl ((0)%Z, ([], (false, tt)))))))))))).
Proof. conforms. Qed.

(** tests/de/default.rs *)
Definition de_default_B_T : list Type := [Z : Type].
Definition de_default_B_d : data := DStruct de_default_B_T (fld [Some [TIdent "skip_serializing"; TPunct ","; TIdent "skip_deserializing"; TPunct ","; TIdent "default"; TPunct "="; TLiteral """Default::default"""]] (int_n I32) 1, tt).
Definition de_default_B_a : list syn_attribute := [None].
Definition de_default_B_p : paths (value de_default_B_d) := no_paths _.
Definition de_default_C_T : list Type := [Z : Type; list N : Type].
Definition de_default_C_d : data := DStruct de_default_C_T (fld [Some [TIdent "skip_serializing"; TPunct ","; TIdent "skip_deserializing"; TPunct ","; TIdent "default"; TPunct "="; TLiteral """two"""]] (int_n I32) 1, (fld [] (string_n) 2, tt)).
Definition de_default_C_a : list syn_attribute := [Some [TIdent "id"; TPunct "="; TIdent "Set"]].
Definition de_default_C_p : paths (value de_default_C_d) := no_paths _.
Definition de_default_D_T : list Type := [Z : Type; list N : Type].
Definition de_default_D_d : data := DStruct de_default_D_T (fld [] (int_n I32) 1, (fld [Some [TIdent "skip_serializing"; TPunct ","; TIdent "skip_deserializing"; TPunct ","; TIdent "default"; TPunct "="; TLiteral """Default::default"""]] (string_n) 2, tt)).
Definition de_default_D_a : list syn_attribute := [Some [TIdent "tag_class"; TPunct "="; TIdent "CONTEXT_SPECIFIC"]].
Definition de_default_D_p : paths (value de_default_D_d) := no_paths _.
Definition de_default_E_T : list Type := [Z : Type; list N : Type; bool : Type].
Definition de_default_E_d : data := DStruct de_default_E_T (fld [] (int_n I32) 1, (fld [Some [TIdent "skip_serializing"; TPunct ","; TIdent "skip_deserializing"; TPunct ","; TIdent "default"; TPunct "="; TLiteral """bar"""]] (string_n) 2, (fld [] (bool_n) 3, tt))).
Definition de_default_E_a : list syn_attribute := [Some [TIdent "id"; TPunct "="; TIdent "Set"; TPunct ","; TIdent "tag_class"; TPunct "="; TIdent "CONTEXT_SPECIFIC"]].
Definition de_default_E_p : paths (value de_default_E_d) := no_paths _.
Definition de_default_F_T : list Type := [Z : Type].
Definition de_default_F_d : data := DStruct de_default_F_T (fld [Some [TIdent "skip_serializing"; TPunct ","; TIdent "skip_deserializing"; TPunct ","; TIdent "default"; TPunct "="; TLiteral """two"""]] (int_n I32) 1, tt).
Definition de_default_F_a : list syn_attribute := [Some [TIdent "tag_pc"; TPunct "="; TIdent "PRIMITIVE"]].
Definition de_default_F_p : paths (value de_default_F_d) := no_paths _.
Definition de_default_G_T : list Type := [Z : Type; list N : Type].
Definition de_default_G_d : data := DStruct de_default_G_T (fld [Some [TIdent "skip_serializing"; TPunct ","; TIdent "skip_deserializing"; TPunct ","; TIdent "default"; TPunct "="; TLiteral """Default::default"""]] (int_n I32) 1, (fld [] (string_n) 2, tt)).
Definition de_default_G_a : list syn_attribute := [Some [TIdent "id"; TPunct "="; TIdent "Set"; TPunct ","; TIdent "tag_pc"; TPunct "="; TIdent "PRIMITIVE"]].
Definition de_default_G_p : paths (value de_default_G_d) := no_paths _.
Definition de_default_H_T : list Type := [Z : Type; list N : Type].
Definition de_default_H_d : data := DStruct de_default_H_T (fld [] (int_n I32) 1, (fld [Some [TIdent "skip_serializing"; TPunct ","; TIdent "skip_deserializing"; TPunct ","; TIdent "default"; TPunct "="; TLiteral """bar"""]] (string_n) 2, tt)).
Definition de_default_H_a : list syn_attribute := [Some [TIdent "tag_class"; TPunct "="; TIdent "CONTEXT_SPECIFIC"; TPunct ","; TIdent "tag_pc"; TPunct "="; TIdent "PRIMITIVE"]].
Definition de_default_H_p : paths (value de_default_H_d) := no_paths _.
Definition de_default_I_T : list Type := [Z : Type; list N : Type; bool : Type].
Definition de_default_I_d : data := DStruct de_default_I_T (fld [] (int_n I32) 1, (fld [Some [TIdent "skip_serializing"; TPunct ","; TIdent "skip_deserializing"; TPunct ","; TIdent "default"; TPunct "="; TLiteral """Default::default"""]] (string_n) 2, (fld [] (bool_n) 3, tt))).
Definition de_default_I_a : list syn_attribute := [Some [TIdent "id"; TPunct "="; TIdent "Set"; TPunct ","; TIdent "tag_class"; TPunct "="; TIdent "CONTEXT_SPECIFIC"; TPunct ","; TIdent "tag_pc"; TPunct "="; TIdent "PRIMITIVE"]].
Definition de_default_I_p : paths (value de_default_I_d) := no_paths _.
Definition de_default_X_T : list (list Type) := [[Z : Type]; [Z : Type; list N : Type]; [Z : Type; list N : Type]; [Z : Type; list N : Type; bool : Type]; [Z : Type]; [Z : Type; list N : Type]; [Z : Type; list N : Type]; [Z : Type; list N : Type; bool : Type]].
Definition de_default_X_d : data := DEnum de_default_X_T ({| vd_attrs := [Some [TIdent "tag_num"; TPunct "="; TLiteral "0"]]; vd_fields := (fld [Some [TIdent "skip_serializing"; TPunct ","; TIdent "skip_deserializing"; TPunct ","; TIdent "default"; TPunct "="; TLiteral """two"""]] (int_n I32) 1, tt) : hlist field_decl [Z : Type] |}, ({| vd_attrs := [Some [TIdent "id"; TPunct "="; TIdent "Set"; TPunct ","; TIdent "tag_num"; TPunct "="; TLiteral "1"]]; vd_fields := (fld [Some [TIdent "skip_serializing"; TPunct ","; TIdent "skip_deserializing"; TPunct ","; TIdent "default"; TPunct "="; TLiteral """Default::default"""]] (int_n I32) 1, (fld [] (string_n) 2, tt)) : hlist field_decl [Z : Type; list N : Type] |}, ({| vd_attrs := [Some [TIdent "tag_class"; TPunct "="; TIdent "CONTEXT_SPECIFIC"; TPunct ","; TIdent "tag_num"; TPunct "="; TLiteral "0x1e"]]; vd_fields := (fld [] (int_n I32) 1, (fld [Some [TIdent "skip_serializing"; TPunct ","; TIdent "skip_deserializing"; TPunct ","; TIdent "default"; TPunct "="; TLiteral """bar"""]] (string_n) 2, tt)) : hlist field_decl [Z : Type; list N : Type] |}, ({| vd_attrs := [Some [TIdent "id"; TPunct "="; TIdent "Set"; TPunct ","; TIdent "tag_class"; TPunct "="; TIdent "CONTEXT_SPECIFIC"; TPunct ","; TIdent "tag_num"; TPunct "="; TLiteral "0x1f"]]; vd_fields := (fld [] (int_n I32) 1, (fld [Some [TIdent "skip_serializing"; TPunct ","; TIdent "skip_deserializing"; TPunct ","; TIdent "default"; TPunct "="; TLiteral """Default::default"""]] (string_n) 2, (fld [] (bool_n) 3, tt))) : hlist field_decl [Z : Type; list N : Type; bool : Type] |}, ({| vd_attrs := [Some [TIdent "tag_pc"; TPunct "="; TIdent "PRIMITIVE"; TPunct ","; TIdent "tag_num"; TPunct "="; TLiteral "0x7f"]]; vd_fields := (fld [Some [TIdent "skip_serializing"; TPunct ","; TIdent "skip_deserializing"; TPunct ","; TIdent "default"; TPunct "="; TLiteral """Default::default"""]] (int_n I32) 1, tt) : hlist field_decl [Z : Type] |}, ({| vd_attrs := [Some [TIdent "id"; TPunct "="; TIdent "Set"; TPunct ","; TIdent "tag_pc"; TPunct "="; TIdent "PRIMITIVE"; TPunct ","; TIdent "tag_num"; TPunct "="; TLiteral "0x80"]]; vd_fields := (fld [Some [TIdent "skip_serializing"; TPunct ","; TIdent "skip_deserializing"; TPunct ","; TIdent "default"; TPunct "="; TLiteral """two"""]] (int_n I32) 1, (fld [] (string_n) 2, tt)) : hlist field_decl [Z : Type; list N : Type] |}, ({| vd_attrs := [Some [TIdent "tag_class"; TPunct "="; TIdent "CONTEXT_SPECIFIC"; TPunct ","; TIdent "tag_pc"; TPunct "="; TIdent "PRIMITIVE"; TPunct ","; TIdent "tag_num"; TPunct "="; TLiteral "0x3fff"]]; vd_fields := (fld [] (int_n I32) 1, (fld [Some [TIdent "skip_serializing"; TPunct ","; TIdent "skip_deserializing"; TPunct ","; TIdent "default"; TPunct "="; TLiteral """Default::default"""]] (string_n) 2, tt)) : hlist field_decl [Z : Type; list N : Type] |}, ({| vd_attrs := [Some [TIdent "id"; TPunct "="; TIdent "Set"; TPunct ","; TIdent "tag_class"; TPunct "="; TIdent "CONTEXT_SPECIFIC"; TPunct ","; TIdent "tag_pc"; TPunct "="; TIdent "PRIMITIVE"; TPunct ","; TIdent "tag_num"; TPunct "="; TLiteral "0x4000"]]; vd_fields := (fld [] (int_n I32) 1, (fld [Some [TIdent "skip_serializing"; TPunct ","; TIdent "skip_deserializing"; TPunct ","; TIdent "default"; TPunct "="; TLiteral """bar"""]] (string_n) 2, (fld [] (bool_n) 3, tt))) : hlist field_decl [Z : Type; list N : Type; bool : Type] |}, tt)))))))).
Definition de_default_X_a : list syn_attribute := [].
Definition de_default_X_p : paths (value de_default_X_d) := no_paths _.
(** line 154 *)
Example de_default_test_b : test_der_back de_default_B_a de_default_B_d de_default_B_p ((0)%Z, tt) = Some (Ok ((0)%Z, tt)) /\
  test_ber_back de_default_B_a de_default_B_d de_default_B_p ((0)%Z, tt) = Some (Ok ((0)%Z, tt)).
Proof. conforms. Qed.
(** line 165 *)
Example de_default_test_c : test_der_back de_default_C_a de_default_C_d de_default_C_p ((1)%Z, ([102; 111; 111], tt)) = Some (Ok ((2)%Z, ([102; 111; 111], tt))) /\
  test_ber_back de_default_C_a de_default_C_d de_default_C_p ((1)%Z, ([102; 111; 111], tt)) = Some (Ok ((2)%Z, ([102; 111; 111], tt))).
Proof. conforms. Qed.
(** line 182 *)
Example de_default_test_d : test_der_back de_default_D_a de_default_D_d de_default_D_p ((0)%Z, ([], tt)) = Some (Ok ((0)%Z, ([], tt))) /\
  test_ber_back de_default_D_a de_default_D_d de_default_D_p ((0)%Z, ([], tt)) = Some (Ok ((0)%Z, ([], tt))).
Proof. conforms. Qed.
(** line 199 *)
Example de_default_test_e : test_der_back de_default_E_a de_default_E_d de_default_E_p ((1)%Z, ([102; 111; 111], (true, tt))) = Some (Ok ((1)%Z, ([98; 97; 114], (true, tt)))) /\
  test_ber_back de_default_E_a de_default_E_d de_default_E_p ((1)%Z, ([102; 111; 111], (true, tt))) = Some (Ok ((1)%Z, ([98; 97; 114], (true, tt)))).
Proof. conforms. Qed.
(** line 218 *)
Example de_default_test_f : test_der_back de_default_F_a de_default_F_d de_default_F_p ((1)%Z, tt) = Some (Ok ((2)%Z, tt)) /\
  test_ber_back de_default_F_a de_default_F_d de_default_F_p ((1)%Z, tt) = Some (Ok ((2)%Z, tt)).
Proof. conforms. Qed.
(** line 229 *)
Example de_default_test_g : test_der_back de_default_G_a de_default_G_d de_default_G_p ((0)%Z, ([], tt)) = Some (Ok ((0)%Z, ([], tt))) /\
  test_ber_back de_default_G_a de_default_G_d de_default_G_p ((0)%Z, ([], tt)) = Some (Ok ((0)%Z, ([], tt))).
Proof. conforms. Qed.
(** line 240 *)
Example de_default_test_h : test_der_back de_default_H_a de_default_H_d de_default_H_p ((1)%Z, ([102; 111; 111], tt)) = Some (Ok ((1)%Z, ([98; 97; 114], tt))) /\
  test_ber_back de_default_H_a de_default_H_d de_default_H_p ((1)%Z, ([102; 111; 111], tt)) = Some (Ok ((1)%Z, ([98; 97; 114], tt))).
Proof. conforms. Qed.
(** line 251 *)
Example de_default_test_i : test_der_back de_default_I_a de_default_I_d de_default_I_p ((0)%Z, ([], (false, tt))) = Some (Ok ((0)%Z, ([], (false, tt)))) /\
  test_ber_back de_default_I_a de_default_I_d de_default_I_p ((0)%Z, ([], (false, tt))) = Some (Ok ((0)%Z, ([], (false, tt)))).
Proof. conforms. Qed.
(** line 262 *)
Example de_default_test_xj : test_der_back de_default_X_a de_default_X_d de_default_X_p (inl ((0)%Z, tt)) = Some (Ok (inl ((2)%Z, tt))) /\
  test_ber_back de_default_X_a de_default_X_d de_default_X_p (inl ((0)%Z, tt)) = Some (Ok (inl ((2)%Z, tt))).
Proof. conforms. Qed.
(** line 273 *)
Example de_default_test_xk : test_der_back de_default_X_a de_default_X_d de_default_X_p (inr (inl ((1)%Z, ([102; 111; 111], tt)))) = Some (Ok (inr (inl ((0)%Z, ([102; 111; 111], tt))))) /\
  test_ber_back de_default_X_a de_default_X_d de_default_X_p (inr (inl ((1)%Z, ([102; 111; 111], tt)))) = Some (Ok (inr (inl ((0)%Z, ([102; 111; 111], tt))))).
Proof. conforms. Qed.
(** line 290 *)
Example de_default_test_xl : test_der_back de_default_X_a de_default_X_d de_default_X_p (inr (inr (inl ((0)%Z, ([], tt))))) = Some (Ok (inr (inr (inl ((0)%Z, ([98; 97; 114], tt)))))) /\
  test_ber_back de_default_X_a de_default_X_d de_default_X_p (inr (inr (inl ((0)%Z, ([], tt))))) = Some (Ok (inr (inr (inl ((0)%Z, ([98; 97; 114], tt)))))).
Proof. conforms. Qed.
(** line 307 *)
Example de_default_test_xm : test_der_back de_default_X_a de_default_X_d de_default_X_p (inr (inr (inr (inl ((1)%Z, ([102; 111; 111], (true, tt))))))) = Some (Ok (inr (inr (inr (inl ((1)%Z, ([], (true, tt)))))))) /\
  test_ber_back de_default_X_a de_default_X_d de_default_X_p (inr (inr (inr (inl ((1)%Z, ([102; 111; 111], (true, tt))))))) = Some (Ok (inr (inr (inr (inl ((1)%Z, ([], (true, tt)))))))).
Proof. conforms. Qed.
(** line 326 *)
Example de_default_test_xn : test_der_back de_default_X_a de_default_X_d de_default_X_p (inr (inr (inr (inr (inl ((1)%Z, tt)))))) = Some (Ok (inr (inr (inr (inr (inl ((0)%Z, tt))))))) /\
  test_ber_back de_default_X_a de_default_X_d de_default_X_p (inr (inr (inr (inr (inl ((1)%Z, tt)))))) = Some (Ok (inr (inr (inr (inr (inl ((0)%Z, tt))))))).
Proof. conforms. Qed.
(** line 337 *)
Example de_default_test_xo : test_der_back de_default_X_a de_default_X_d de_default_X_p (inr (inr (inr (inr (inr (inl ((0)%Z, ([], tt)))))))) = Some (Ok (inr (inr (inr (inr (inr (inl ((2)%Z, ([], tt))))))))) /\
  test_ber_back de_default_X_a de_default_X_d de_default_X_p (inr (inr (inr (inr (inr (inl ((0)%Z, ([], tt)))))))) = Some (Ok (inr (inr (inr (inr (inr (inl ((2)%Z, ([], tt))))))))).
Proof. conforms. Qed.
(** line 348 *)
Example de_default_test_xp : test_der_back de_default_X_a de_default_X_d de_default_X_p (inr (inr (inr (inr (inr (inr (inl ((1)%Z, ([102; 111; 111], tt))))))))) = Some (Ok (inr (inr (inr (inr (inr (inr (inl ((1)%Z, ([], tt)))))))))) /\
  test_ber_back de_default_X_a de_default_X_d de_default_X_p (inr (inr (inr (inr (inr (inr (inl ((1)%Z, ([102; 111; 111], tt))))))))) = Some (Ok (inr (inr (inr (inr (inr (inr (inl ((1)%Z, ([], tt)))))))))).
Proof. conforms. Qed.
(** line 359 *)
Example de_default_test_xq : test_der_back de_default_X_a de_default_X_d de_default_X_p (inr (inr (inr (inr (inr (inr (inr (inl ((0)%Z, ([], (false, tt))))))))))) = Some (Ok (inr (inr (inr (inr (inr (inr (inr (inl ((0)%Z, ([98; 97; 114], (false, tt)))))))))))) /\
  test_ber_back de_default_X_a de_default_X_d de_default_X_p (inr (inr (inr (inr (inr (inr (inr (inl ((0)%Z, ([], (false, tt))))))))))) = Some (Ok (inr (inr (inr (inr (inr (inr (inr (inl ((0)%Z, ([98; 97; 114], (false, tt)))))))))))).
Proof. conforms. Qed.

(** tests/de/from_field.rs *)
Definition de_from_field_A_T : list Type := [Z : Type].
Definition de_from_field_A_d : data := DStruct de_from_field_A_T (fld [Some [TIdent "into"; TPunct "="; TLiteral """i32"""; TPunct ","; TIdent "from"; TPunct "="; TLiteral """i32"""]] (int_n I32) 1, tt).
Definition de_from_field_A_a : list syn_attribute := [].
Definition de_from_field_A_p : paths (value de_from_field_A_d) := no_paths _.
Definition de_from_field_B_T : list Type := [Z : Type; Z : Type].
Definition de_from_field_B_d : data := DStruct de_from_field_B_T (fld [Some [TIdent "into"; TPunct "="; TLiteral """i32"""; TPunct ","; TIdent "from"; TPunct "="; TLiteral """i32"""]] (int_n I32) 1, (fld [] (int_n I8) 2, tt)).
Definition de_from_field_B_a : list syn_attribute := [].
Definition de_from_field_B_p : paths (value de_from_field_B_d) := no_paths _.
Definition de_from_field_C_T : list Type := [Z : Type].
Definition de_from_field_C_d : data := DStruct de_from_field_C_T (fld [Some [TIdent "into"; TPunct "="; TLiteral """i32"""; TPunct ","; TIdent "from"; TPunct "="; TLiteral """i32"""]] (int_n I32) 1, tt).
Definition de_from_field_C_a : list syn_attribute := [].
Definition de_from_field_C_p : paths (value de_from_field_C_d) := no_paths _.
Definition de_from_field_D_T : list Type := [Z : Type; Z : Type].
Definition de_from_field_D_d : data := DStruct de_from_field_D_T (fld [] (int_n I8) 1, (fld [Some [TIdent "into"; TPunct "="; TLiteral """i32"""; TPunct ","; TIdent "from"; TPunct "="; TLiteral """i32"""]] (int_n I32) 2, tt)).
Definition de_from_field_D_a : list syn_attribute := [].
Definition de_from_field_D_p : paths (value de_from_field_D_d) := no_paths _.
Definition de_from_field_X_T : list (list Type) := [[Z : Type]; [Z : Type; Z : Type]; [Z : Type]; [Z : Type; Z : Type]].
Definition de_from_field_X_d : data := DEnum de_from_field_X_T ({| vd_attrs := [Some []]; vd_fields := (fld [Some [TIdent "into"; TPunct "="; TLiteral """i32"""; TPunct ","; TIdent "from"; TPunct "="; TLiteral """i32"""]] (int_n I32) 1, tt) : hlist field_decl [Z : Type] |}, ({| vd_attrs := [Some [TIdent "id"; TPunct "="; TIdent "Set"]]; vd_fields := (fld [Some [TIdent "into"; TPunct "="; TLiteral """i32"""; TPunct ","; TIdent "from"; TPunct "="; TLiteral """i32"""]] (int_n I32) 1, (fld [] (int_n I8) 2, tt)) : hlist field_decl [Z : Type; Z : Type] |}, ({| vd_attrs := [Some [TIdent "id"; TPunct "="; TIdent "Set"; TPunct ","; TIdent "tag_num"; TPunct "="; TLiteral "0x0100"]]; vd_fields := (fld [Some [TIdent "into"; TPunct "="; TLiteral """i32"""; TPunct ","; TIdent "from"; TPunct "="; TLiteral """i32"""]] (int_n I32) 1, tt) : hlist field_decl [Z : Type] |}, ({| vd_attrs := [Some [TIdent "id"; TPunct "="; TIdent "Set"; TPunct ","; TIdent "tag_num"; TPunct "="; TLiteral "0x0101"]]; vd_fields := (fld [] (int_n I8) 1, (fld [Some [TIdent "into"; TPunct "="; TLiteral """i32"""; TPunct ","; TIdent "from"; TPunct "="; TLiteral """i32"""]] (int_n I32) 2, tt)) : hlist field_decl [Z : Type; Z : Type] |}, tt)))).
Definition de_from_field_X_a : list syn_attribute := [].
Definition de_from_field_X_p : paths (value de_from_field_X_d) := no_paths _.
(** line 83 *)
Example de_from_field_test_a : test_der_back de_from_field_A_a de_from_field_A_d de_from_field_A_p ((123)%Z, tt) = Some (Ok ((123)%Z, tt)) /\
  test_ber_back de_from_field_A_a de_from_field_A_d de_from_field_A_p ((123)%Z, tt) = Some (Ok ((123)%Z, tt)).
Proof. conforms. Qed.
(** line 95 *)
Example de_from_field_test_b : test_der_back de_from_field_B_a de_from_field_B_d de_from_field_B_p ((123)%Z, ((1)%Z, tt)) = Some (Ok ((123)%Z, ((1)%Z, tt))) /\
  test_ber_back de_from_field_B_a de_from_field_B_d de_from_field_B_p ((123)%Z, ((1)%Z, tt)) = Some (Ok ((123)%Z, ((1)%Z, tt))).
Proof. conforms. Qed.
(** line 108 *)
Example de_from_field_test_c : test_der_back de_from_field_C_a de_from_field_C_d de_from_field_C_p ((123)%Z, tt) = Some (Ok ((123)%Z, tt)) /\
  test_ber_back de_from_field_C_a de_from_field_C_d de_from_field_C_p ((123)%Z, tt) = Some (Ok ((123)%Z, tt)).
Proof. conforms. Qed.
(** line 118 *)
Example de_from_field_test_d : test_der_back de_from_field_D_a de_from_field_D_d de_from_field_D_p ((1)%Z, ((123)%Z, tt)) = Some (Ok ((1)%Z, ((123)%Z, tt))) /\
  test_ber_back de_from_field_D_a de_from_field_D_d de_from_field_D_p ((1)%Z, ((123)%Z, tt)) = Some (Ok ((1)%Z, ((123)%Z, tt))).
Proof. conforms. Qed.
(** line 128 *)
Example de_from_field_test_xa : test_der_back de_from_field_X_a de_from_field_X_d de_from_field_X_p (inl ((123)%Z, tt)) = Some (Ok (inl ((123)%Z, tt))) /\
  test_ber_back de_from_field_X_a de_from_field_X_d de_from_field_X_p (inl ((123)%Z, tt)) = Some (Ok (inl ((123)%Z, tt))).
Proof. conforms. Qed.
(** line 140 *)
Example de_from_field_test_xb : test_der_back de_from_field_X_a de_from_field_X_d de_from_field_X_p (inr (inl ((123)%Z, ((1)%Z, tt)))) = Some (Ok (inr (inl ((123)%Z, ((1)%Z, tt))))) /\
  test_ber_back de_from_field_X_a de_from_field_X_d de_from_field_X_p (inr (inl ((123)%Z, ((1)%Z, tt)))) = Some (Ok (inr (inl ((123)%Z, ((1)%Z, tt))))).
Proof. conforms. Qed.
(** line 153 *)
Example de_from_field_test_xc : test_der_back de_from_field_X_a de_from_field_X_d de_from_field_X_p (inr (inr (inl ((123)%Z, tt)))) = Some (Ok (inr (inr (inl ((123)%Z, tt))))) /\
  test_ber_back de_from_field_X_a de_from_field_X_d de_from_field_X_p (inr (inr (inl ((123)%Z, tt)))) = Some (Ok (inr (inr (inl ((123)%Z, tt))))).
Proof. conforms. Qed.
(** line 163 *)
Example de_from_field_test_xd : test_der_back de_from_field_X_a de_from_field_X_d de_from_field_X_p (inr (inr (inr (inl ((1)%Z, ((123)%Z, tt)))))) = Some (Ok (inr (inr (inr (inl ((1)%Z, ((123)%Z, tt))))))) /\
  test_ber_back de_from_field_X_a de_from_field_X_d de_from_field_X_p (inr (inr (inr (inl ((1)%Z, ((123)%Z, tt)))))) = Some (Ok (inr (inr (inr (inl ((1)%Z, ((123)%Z, tt))))))).
Proof. conforms. Qed.

(** tests/de/try_from_field.rs *)
Definition de_try_from_field_A_T : list Type := [list N : Type].
Definition de_try_from_field_A_d : data := DStruct de_try_from_field_A_T (fld [Some [TIdent "to"; TPunct "="; TLiteral """OctetString::new"""; TPunct ","; TIdent "try_from"; TPunct "="; TLiteral """OctetString<'_>"""]] (bytes_n) 1, tt).
Definition de_try_from_field_A_a : list syn_attribute := [].
Definition de_try_from_field_A_p : paths (value de_try_from_field_A_d) := no_paths _.
Definition de_try_from_field_B_T : list Type := [list N : Type; Z : Type].
Definition de_try_from_field_B_d : data := DStruct de_try_from_field_B_T (fld [Some [TIdent "to"; TPunct "="; TLiteral """OctetString::new"""; TPunct ","; TIdent "try_from"; TPunct "="; TLiteral """OctetString<'_>"""]] (bytes_n) 1, (fld [] (int_n I8) 2, tt)).
Definition de_try_from_field_B_a : list syn_attribute := [].
Definition de_try_from_field_B_p : paths (value de_try_from_field_B_d) := no_paths _.
Definition de_try_from_field_C_T : list Type := [list N : Type].
Definition de_try_from_field_C_d : data := DStruct de_try_from_field_C_T (fld [Some [TIdent "to"; TPunct "="; TLiteral """OctetString::new"""; TPunct ","; TIdent "try_from"; TPunct "="; TLiteral """OctetString<'_>"""]] (bytes_n) 1, tt).
Definition de_try_from_field_C_a : list syn_attribute := [Some [TIdent "id"; TPunct "="; TIdent "Boolean"]].
Definition de_try_from_field_C_p : paths (value de_try_from_field_C_d) := no_paths _.
Definition de_try_from_field_D_T : list Type := [Z : Type; list N : Type].
Definition de_try_from_field_D_d : data := DStruct de_try_from_field_D_T (fld [] (int_n I8) 1, (fld [Some [TIdent "to"; TPunct "="; TLiteral """OctetString::new"""; TPunct ","; TIdent "try_from"; TPunct "="; TLiteral """OctetString<'_>"""]] (bytes_n) 2, tt)).
Definition de_try_from_field_D_a : list syn_attribute := [Some [TIdent "id"; TPunct "="; TIdent "Null"]].
Definition de_try_from_field_D_p : paths (value de_try_from_field_D_d) := no_paths _.
Definition de_try_from_field_X_T : list (list Type) := [[list N : Type]; [list N : Type; Z : Type]; [list N : Type]; [Z : Type; list N : Type]].
Definition de_try_from_field_X_d : data := DEnum de_try_from_field_X_T ({| vd_attrs := []; vd_fields := (fld [Some [TIdent "to"; TPunct "="; TLiteral """OctetString::new"""; TPunct ","; TIdent "try_from"; TPunct "="; TLiteral """OctetString<'_>"""]] (bytes_n) 1, tt) : hlist field_decl [list N : Type] |}, ({| vd_attrs := [Some [TIdent "id"; TPunct "="; TIdent "Set"]]; vd_fields := (fld [Some [TIdent "to"; TPunct "="; TLiteral """OctetString::new"""; TPunct ","; TIdent "try_from"; TPunct "="; TLiteral """OctetString<'_>"""]] (bytes_n) 1, (fld [] (int_n I8) 2, tt)) : hlist field_decl [list N : Type; Z : Type] |}, ({| vd_attrs := [Some [TIdent "id"; TPunct "="; TIdent "Boolean"]]; vd_fields := (fld [Some [TIdent "to"; TPunct "="; TLiteral """OctetString::new"""; TPunct ","; TIdent "try_from"; TPunct "="; TLiteral """OctetString<'_>"""]] (bytes_n) 1, tt) : hlist field_decl [list N : Type] |}, ({| vd_attrs := [Some [TIdent "id"; TPunct "="; TIdent "Null"]]; vd_fields := (fld [] (int_n I8) 1, (fld [Some [TIdent "to"; TPunct "="; TLiteral """OctetString::new"""; TPunct ","; TIdent "try_from"; TPunct "="; TLiteral """OctetString<'_>"""]] (bytes_n) 2, tt)) : hlist field_decl [Z : Type; list N : Type] |}, tt)))).
Definition de_try_from_field_X_a : list syn_attribute := [].
Definition de_try_from_field_X_p : paths (value de_try_from_field_X_d) := no_paths _.
(** line 90 *)
Example de_try_from_field_test_a : test_der_back de_try_from_field_A_a de_try_from_field_A_d de_try_from_field_A_p ([], tt) = Some (Ok ([], tt)) /\
  test_ber_back de_try_from_field_A_a de_try_from_field_A_d de_try_from_field_A_p ([], tt) = Some (Ok ([], tt)).
Proof. conforms. Qed.
(** line 102 *)
Example de_try_from_field_test_b : test_der_back de_try_from_field_B_a de_try_from_field_B_d de_try_from_field_B_p ([0], ((1)%Z, tt)) = Some (Ok ([0], ((1)%Z, tt))) /\
  test_ber_back de_try_from_field_B_a de_try_from_field_B_d de_try_from_field_B_p ([0], ((1)%Z, tt)) = Some (Ok ([0], ((1)%Z, tt))).
Proof. conforms. Qed.
(** line 115 *)
Example de_try_from_field_test_c : test_der_back de_try_from_field_C_a de_try_from_field_C_d de_try_from_field_C_p ([0; 1], tt) = Some (Ok ([0; 1], tt)) /\
  test_ber_back de_try_from_field_C_a de_try_from_field_C_d de_try_from_field_C_p ([0; 1], tt) = Some (Ok ([0; 1], tt)).
Proof. conforms. Qed.
(** line 125 *)
Example de_try_from_field_test_d : test_der_back de_try_from_field_D_a de_try_from_field_D_d de_try_from_field_D_p ((1)%Z, ([0; 1; 2], tt)) = Some (Ok ((1)%Z, ([0; 1; 2], tt))) /\
  test_ber_back de_try_from_field_D_a de_try_from_field_D_d de_try_from_field_D_p ((1)%Z, ([0; 1; 2], tt)) = Some (Ok ((1)%Z, ([0; 1; 2], tt))).
Proof. conforms. Qed.
(** line 135 *)
Example de_try_from_field_test_xa : test_der_back de_try_from_field_X_a de_try_from_field_X_d de_try_from_field_X_p (inl ([], tt)) = Some (Ok (inl ([], tt))) /\
  test_ber_back de_try_from_field_X_a de_try_from_field_X_d de_try_from_field_X_p (inl ([], tt)) = Some (Ok (inl ([], tt))).
Proof. conforms. Qed.
(** line 147 *)
Example de_try_from_field_test_xb : test_der_back de_try_from_field_X_a de_try_from_field_X_d de_try_from_field_X_p (inr (inl ([0], ((1)%Z, tt)))) = Some (Ok (inr (inl ([0], ((1)%Z, tt))))) /\
  test_ber_back de_try_from_field_X_a de_try_from_field_X_d de_try_from_field_X_p (inr (inl ([0], ((1)%Z, tt)))) = Some (Ok (inr (inl ([0], ((1)%Z, tt))))).
Proof. conforms. Qed.
(** line 160 *)
Example de_try_from_field_test_xc : test_der_back de_try_from_field_X_a de_try_from_field_X_d de_try_from_field_X_p (inr (inr (inl ([0; 1], tt)))) = Some (Ok (inr (inr (inl ([0; 1], tt))))) /\
  test_ber_back de_try_from_field_X_a de_try_from_field_X_d de_try_from_field_X_p (inr (inr (inl ([0; 1], tt)))) = Some (Ok (inr (inr (inl ([0; 1], tt))))).
Proof. conforms. Qed.
(** line 170 *)
Example de_try_from_field_test_xd : test_der_back de_try_from_field_X_a de_try_from_field_X_d de_try_from_field_X_p (inr (inr (inr (inl ((1)%Z, ([0; 1; 2], tt)))))) = Some (Ok (inr (inr (inr (inl ((1)%Z, ([0; 1; 2], tt))))))) /\
  test_ber_back de_try_from_field_X_a de_try_from_field_X_d de_try_from_field_X_p (inr (inr (inr (inl ((1)%Z, ([0; 1; 2], tt)))))) = Some (Ok (inr (inr (inr (inl ((1)%Z, ([0; 1; 2], tt))))))).
Proof. conforms. Qed.

(** tests/de/transparent.rs *)
Definition de_transparent_A_T : list Type := [list N : Type].
Definition de_transparent_A_d : data := DStruct de_transparent_A_T (fld [] (bytes_n) 1, tt).
Definition de_transparent_A_a : list syn_attribute := [Some [TIdent "transparent"]].
Definition de_transparent_A_p : paths (value de_transparent_A_d) := no_paths _.
Definition de_transparent_B_T : list Type := [list N : Type].
Definition de_transparent_B_d : data := DStruct de_transparent_B_T (fld [] (string_n) 1, tt).
Definition de_transparent_B_a : list syn_attribute := [Some [TIdent "transparent"]].
Definition de_transparent_B_p : paths (value de_transparent_B_d) := no_paths _.
Definition de_transparent_C_T : list Type := [list N : Type; Z : Type].
Definition de_transparent_C_d : data := DStruct de_transparent_C_T (fld [Some [TIdent "from"; TPunct "="; TLiteral """OctetString<'static>"""; TPunct ","; TIdent "into"; TPunct "="; TLiteral """OctetString"""]] (bytes_n) 1, (fld [Some [TIdent "skip"]] (int_n U8) 2, tt)).
Definition de_transparent_C_a : list syn_attribute := [Some [TIdent "transparent"]].
Definition de_transparent_C_p : paths (value de_transparent_C_d) := no_paths _.
Definition de_transparent_D_T : list Type := [list N : Type; list N : Type].
Definition de_transparent_D_d : data := DStruct de_transparent_D_T (fld [Some [TIdent "from"; TPunct "="; TLiteral """OctetString<'static>"""]] (bytes_n) 1, (fld [Some [TIdent "skip_deserializing"]] (string_n) 2, tt)).
Definition de_transparent_D_a : list syn_attribute := [Some [TIdent "transparent"]].
Definition de_transparent_D_p : paths (value de_transparent_D_d) := no_paths _.
Definition de_transparent_E_T : list Type := [list N : Type; list N : Type].
Definition de_transparent_E_d : data := DStruct de_transparent_E_T (fld [Some [TIdent "skip_deserializing"]] (string_n) 1, (fld [Some [TIdent "try_from"; TPunct "="; TLiteral """OctetString"""; TPunct ","; TIdent "to"; TPunct "="; TLiteral """OctetString::new"""]] (string_n) 2, tt)).
Definition de_transparent_E_a : list syn_attribute := [Some [TIdent "transparent"]].
Definition de_transparent_E_p : paths (value de_transparent_E_d) := no_paths _.
Definition de_transparent_F_T : list Type := [Z : Type; list N : Type].
Definition de_transparent_F_d : data := DStruct de_transparent_F_T (fld [Some [TIdent "skip"]] (int_n U8) 1, (fld [Some [TIdent "try_from"; TPunct "="; TLiteral """OctetString"""; TPunct ","; TIdent "to"; TPunct "="; TLiteral """OctetString::new"""]] (string_n) 2, tt)).
Definition de_transparent_F_a : list syn_attribute := [Some [TIdent "transparent"]].
Definition de_transparent_F_p : paths (value de_transparent_F_d) := no_paths _.
(** line 70 *)
Example de_transparent_test_a : test_der_back de_transparent_A_a de_transparent_A_d de_transparent_A_p ([1; 2; 3], tt) = Some (Ok ([1; 2; 3], tt)) /\
  test_ber_back de_transparent_A_a de_transparent_A_d de_transparent_A_p ([1; 2; 3], tt) = Some (Ok ([1; 2; 3], tt)).
Proof. conforms. Qed.
(** line 82 *)
Example de_transparent_test_b : test_der_back de_transparent_B_a de_transparent_B_d de_transparent_B_p ([97; 98; 99], tt) = Some (Ok ([97; 98; 99], tt)) /\
  test_ber_back de_transparent_B_a de_transparent_B_d de_transparent_B_p ([97; 98; 99], tt) = Some (Ok ([97; 98; 99], tt)).
Proof. conforms. Qed.
(** line 92 *)
Example de_transparent_test_c : test_der_back de_transparent_C_a de_transparent_C_d de_transparent_C_p ([1; 2; 3], ((4)%Z, tt)) = Some (Ok ([1; 2; 3], ((0)%Z, tt))) /\
  test_ber_back de_transparent_C_a de_transparent_C_d de_transparent_C_p ([1; 2; 3], ((4)%Z, tt)) = Some (Ok ([1; 2; 3], ((0)%Z, tt))).
Proof. conforms. Qed.
(** line 109 *)
Example de_transparent_test_d : test_from_der de_transparent_D_a de_transparent_D_d de_transparent_D_p [4; 3; 1; 2; 3] = Some (Ok ([1; 2; 3], ([], tt))) /\
  test_from_ber de_transparent_D_a de_transparent_D_d de_transparent_D_p [4; 3; 1; 2; 3] = Some (Ok ([1; 2; 3], ([], tt))).
Proof. conforms. Qed.
(** line 123 *)
Example de_transparent_test_e : test_from_der de_transparent_E_a de_transparent_E_d de_transparent_E_p [4; 3; 102; 111; 111] = Some (Ok ([], ([102; 111; 111], tt))) /\
  test_from_ber de_transparent_E_a de_transparent_E_d de_transparent_E_p [4; 3; 102; 111; 111] = Some (Ok ([], ([102; 111; 111], tt))).
Proof. conforms. Qed.
(** line 137 *)
Example de_transparent_test_f : test_der_back de_transparent_F_a de_transparent_F_d de_transparent_F_p ((3)%Z, ([98; 97; 114], tt)) = Some (Ok ((0)%Z, ([98; 97; 114], tt))) /\
  test_ber_back de_transparent_F_a de_transparent_F_d de_transparent_F_p ((3)%Z, ([98; 97; 114], tt)) = Some (Ok ((0)%Z, ([98; 97; 114], tt))).
Proof. conforms. Qed.

(** tests/de/generics.rs *)
Definition de_generics_X_T : list (list Type) := [[bool : Type]; [Z : Type]].
Definition de_generics_X_d : data := DEnum de_generics_X_T ({| vd_attrs := [Some [TIdent "id"; TPunct "="; TIdent "Sequence"]]; vd_fields := (fld [] (bool_n) 1, tt) : hlist field_decl [bool : Type] |}, ({| vd_attrs := [Some [TIdent "id"; TPunct "="; TIdent "Set"]]; vd_fields := (fld [] (int_n I32) 1, tt) : hlist field_decl [Z : Type] |}, tt)).
Definition de_generics_X_a : list syn_attribute := [].
Definition de_generics_X_p : paths (value de_generics_X_d) := no_paths _.
(** line 37 *)
Example de_generics_test_xy : test_der_back de_generics_X_a de_generics_X_d de_generics_X_p (inl (true, tt)) = Some (Ok (inl (true, tt))).
Proof. conforms. Qed.
(** line 46 *)
Example de_generics_test_xz : test_der_back de_generics_X_a de_generics_X_d de_generics_X_p (inr (inl ((32)%Z, tt))) = Some (Ok (inr (inl ((32)%Z, tt)))).
Proof. conforms. Qed.

(** tests/de/from_struct.rs *)
Definition de_from_struct_A_T : list Type := [list N : Type].
Definition de_from_struct_A_d : data := DStruct de_from_struct_A_T (fld [] (string_n) 1, tt).
Definition de_from_struct_A_a : list syn_attribute := [Some [TIdent "into"; TPunct "="; TLiteral """String"""; TPunct ","; TIdent "from"; TPunct "="; TLiteral """String"""]].
Definition de_from_struct_A_p : paths (value de_from_struct_A_d) := whole_paths (fst : value de_from_struct_A_d -> list N) ((fun s => (s, tt)) : list N -> value de_from_struct_A_d) ser_string (de_string test_env).
Definition de_from_struct_B_T : list Type := [list N : Type; Z : Type].
Definition de_from_struct_B_d : data := DStruct de_from_struct_B_T (fld [] (string_n) 1, (fld [] (int_n I8) 2, tt)).
Definition de_from_struct_B_a : list syn_attribute := [Some [TIdent "into"; TPunct "="; TLiteral """String"""; TPunct ","; TIdent "from"; TPunct "="; TLiteral """String"""]].
Definition de_from_struct_B_p : paths (value de_from_struct_B_d) := whole_paths (fst : value de_from_struct_B_d -> list N) ((fun s => (s, ((5)%Z, tt))) : list N -> value de_from_struct_B_d) ser_string (de_string test_env).
Definition de_from_struct_C_T : list Type := [list N : Type].
Definition de_from_struct_C_d : data := DStruct de_from_struct_C_T (fld [] (string_n) 1, tt).
Definition de_from_struct_C_a : list syn_attribute := [Some [TIdent "into"; TPunct "="; TLiteral """String"""; TPunct ","; TIdent "from"; TPunct "="; TLiteral """String"""]].
Definition de_from_struct_C_p : paths (value de_from_struct_C_d) := whole_paths (fst : value de_from_struct_C_d -> list N) ((fun s => (s, tt)) : list N -> value de_from_struct_C_d) ser_string (de_string test_env).
Definition de_from_struct_D_T : list Type := [Z : Type; list N : Type].
Definition de_from_struct_D_d : data := DStruct de_from_struct_D_T (fld [] (int_n I8) 1, (fld [] (string_n) 2, tt)).
Definition de_from_struct_D_a : list syn_attribute := [Some [TIdent "into"; TPunct "="; TLiteral """String"""; TPunct ","; TIdent "from"; TPunct "="; TLiteral """String"""]].
Definition de_from_struct_D_p : paths (value de_from_struct_D_d) := whole_paths ((fun v => fst (snd v)) : value de_from_struct_D_d -> list N) ((fun s => ((-2)%Z, (s, tt))) : list N -> value de_from_struct_D_d) ser_string (de_string test_env).
(** line 98 *)
Example de_from_struct_test_a : test_der_back de_from_struct_A_a de_from_struct_A_d de_from_struct_A_p ([97; 98; 99], tt) = Some (Ok ([97; 98; 99], tt)) /\
  test_ber_back de_from_struct_A_a de_from_struct_A_d de_from_struct_A_p ([97; 98; 99], tt) = Some (Ok ([97; 98; 99], tt)).
Proof. conforms. Qed.
(** line 108 *)
Example de_from_struct_test_b : test_der_back de_from_struct_B_a de_from_struct_B_d de_from_struct_B_p ([97; 98; 99], ((5)%Z, tt)) = Some (Ok ([97; 98; 99], ((5)%Z, tt))) /\
  test_ber_back de_from_struct_B_a de_from_struct_B_d de_from_struct_B_p ([97; 98; 99], ((5)%Z, tt)) = Some (Ok ([97; 98; 99], ((5)%Z, tt))).
Proof. conforms. Qed.
(** line 118 *)
Example de_from_struct_test_c : test_der_back de_from_struct_C_a de_from_struct_C_d de_from_struct_C_p ([97; 98; 99], tt) = Some (Ok ([97; 98; 99], tt)) /\
  test_ber_back de_from_struct_C_a de_from_struct_C_d de_from_struct_C_p ([97; 98; 99], tt) = Some (Ok ([97; 98; 99], tt)).
Proof. conforms. Qed.
(** line 128 *)
Example de_from_struct_test_d : test_der_back de_from_struct_D_a de_from_struct_D_d de_from_struct_D_p ((-2)%Z, ([97; 98; 99], tt)) = Some (Ok ((-2)%Z, ([97; 98; 99], tt))) /\
  test_ber_back de_from_struct_D_a de_from_struct_D_d de_from_struct_D_p ((-2)%Z, ([97; 98; 99], tt)) = Some (Ok ((-2)%Z, ([97; 98; 99], tt))).
Proof. conforms. Qed.

(** tests/de/from_enum.rs *)
Definition de_from_enum_X_T : list (list Type) := [[list N : Type]; [list N : Type; Z : Type]; [list N : Type]; [Z : Type; list N : Type]].
Definition de_from_enum_X_d : data := DEnum de_from_enum_X_T ({| vd_attrs := []; vd_fields := (fld [] (string_n) 1, tt) : hlist field_decl [list N : Type] |}, ({| vd_attrs := []; vd_fields := (fld [] (string_n) 1, (fld [] (int_n I8) 2, tt)) : hlist field_decl [list N : Type; Z : Type] |}, ({| vd_attrs := []; vd_fields := (fld [] (string_n) 1, tt) : hlist field_decl [list N : Type] |}, ({| vd_attrs := []; vd_fields := (fld [] (int_n I8) 1, (fld [] (string_n) 2, tt)) : hlist field_decl [Z : Type; list N : Type] |}, tt)))).
Definition de_from_enum_X_a : list syn_attribute := [Some [TIdent "into"; TPunct "="; TLiteral """String"""; TPunct ","; TIdent "from"; TPunct "="; TLiteral """String"""]].
Definition de_from_enum_X_p : paths (value de_from_enum_X_d) := whole_paths ((fun v => match v with inl a => fst a | inr (inl b) => fst b | inr (inr (inl c)) => fst c | inr (inr (inr (inl d))) => fst (snd d) | inr (inr (inr (inr e))) => match e with end end) : value de_from_enum_X_d -> list N) ((fun s => match s with 97 :: _ => inl (s, tt) | 98 :: _ => inr (inl (s, (7%Z, tt))) | 99 :: _ => inr (inr (inl (s, tt))) | _ => inr (inr (inr (inl (13%Z, (s, tt))))) end) : list N -> value de_from_enum_X_d) ser_string (de_string test_env).
(** line 63 *)
Example de_from_enum_test_xa : test_der_back de_from_enum_X_a de_from_enum_X_d de_from_enum_X_p (inl ([97; 95; 102; 111; 111], tt)) = Some (Ok (inl ([97; 95; 102; 111; 111], tt))) /\
  test_ber_back de_from_enum_X_a de_from_enum_X_d de_from_enum_X_p (inl ([97; 95; 102; 111; 111], tt)) = Some (Ok (inl ([97; 95; 102; 111; 111], tt))).
Proof. conforms. Qed.
(** line 73 *)
Example de_from_enum_test_xb : test_der_back de_from_enum_X_a de_from_enum_X_d de_from_enum_X_p (inr (inl ([98; 95; 102; 111; 111], ((7)%Z, tt)))) = Some (Ok (inr (inl ([98; 95; 102; 111; 111], ((7)%Z, tt))))) /\
  test_ber_back de_from_enum_X_a de_from_enum_X_d de_from_enum_X_p (inr (inl ([98; 95; 102; 111; 111], ((7)%Z, tt)))) = Some (Ok (inr (inl ([98; 95; 102; 111; 111], ((7)%Z, tt))))).
Proof. conforms. Qed.
(** line 83 *)
Example de_from_enum_test_xc : test_der_back de_from_enum_X_a de_from_enum_X_d de_from_enum_X_p (inr (inr (inl ([99; 95; 102; 111; 111], tt)))) = Some (Ok (inr (inr (inl ([99; 95; 102; 111; 111], tt))))) /\
  test_ber_back de_from_enum_X_a de_from_enum_X_d de_from_enum_X_p (inr (inr (inl ([99; 95; 102; 111; 111], tt)))) = Some (Ok (inr (inr (inl ([99; 95; 102; 111; 111], tt))))).
Proof. conforms. Qed.
(** line 93 *)
Example de_from_enum_test_xd : test_der_back de_from_enum_X_a de_from_enum_X_d de_from_enum_X_p (inr (inr (inr (inl ((13)%Z, ([100; 95; 102; 111; 111], tt)))))) = Some (Ok (inr (inr (inr (inl ((13)%Z, ([100; 95; 102; 111; 111], tt))))))) /\
  test_ber_back de_from_enum_X_a de_from_enum_X_d de_from_enum_X_p (inr (inr (inr (inl ((13)%Z, ([100; 95; 102; 111; 111], tt)))))) = Some (Ok (inr (inr (inr (inl ((13)%Z, ([100; 95; 102; 111; 111], tt))))))).
Proof. conforms. Qed.

(** tests/de/try_from_struct.rs *)
Definition de_try_from_struct_A_T : list Type := [list N : Type].
Definition de_try_from_struct_A_d : data := DStruct de_try_from_struct_A_T (fld [] (string_n) 1, tt).
Definition de_try_from_struct_A_a : list syn_attribute := [Some [TIdent "to"; TPunct "="; TLiteral """OctetString::new"""; TPunct ","; TIdent "try_from"; TPunct "="; TLiteral """OctetString"""]].
Definition de_try_from_struct_A_p : paths (value de_try_from_struct_A_d) := whole_paths (fst : value de_try_from_struct_A_d -> list N) ((fun s => (s, tt)) : list N -> value de_try_from_struct_A_d) ser_octets de_octets.
Definition de_try_from_struct_B_T : list Type := [list N : Type; Z : Type].
Definition de_try_from_struct_B_d : data := DStruct de_try_from_struct_B_T (fld [] (string_n) 1, (fld [] (int_n I8) 2, tt)).
Definition de_try_from_struct_B_a : list syn_attribute := [Some [TIdent "to"; TPunct "="; TLiteral """OctetString::new"""; TPunct ","; TIdent "try_from"; TPunct "="; TLiteral """OctetString"""]].
Definition de_try_from_struct_B_p : paths (value de_try_from_struct_B_d) := whole_paths (fst : value de_try_from_struct_B_d -> list N) ((fun s => (s, ((-2)%Z, tt))) : list N -> value de_try_from_struct_B_d) ser_octets de_octets.
Definition de_try_from_struct_C_T : list Type := [list N : Type].
Definition de_try_from_struct_C_d : data := DStruct de_try_from_struct_C_T (fld [] (string_n) 1, tt).
Definition de_try_from_struct_C_a : list syn_attribute := [Some [TIdent "to"; TPunct "="; TLiteral """OctetString::new"""; TPunct ","; TIdent "try_from"; TPunct "="; TLiteral """OctetString"""]].
Definition de_try_from_struct_C_p : paths (value de_try_from_struct_C_d) := whole_paths (fst : value de_try_from_struct_C_d -> list N) ((fun s => (s, tt)) : list N -> value de_try_from_struct_C_d) ser_octets de_octets.
Definition de_try_from_struct_D_T : list Type := [Z : Type; list N : Type].
Definition de_try_from_struct_D_d : data := DStruct de_try_from_struct_D_T (fld [] (int_n I8) 1, (fld [] (string_n) 2, tt)).
Definition de_try_from_struct_D_a : list syn_attribute := [Some [TIdent "to"; TPunct "="; TLiteral """OctetString::new"""; TPunct ","; TIdent "try_from"; TPunct "="; TLiteral """OctetString"""]].
Definition de_try_from_struct_D_p : paths (value de_try_from_struct_D_d) := whole_paths ((fun v => fst (snd v)) : value de_try_from_struct_D_d -> list N) ((fun s => ((3)%Z, (s, tt))) : list N -> value de_try_from_struct_D_d) ser_octets de_octets.
(** line 108 *)
Example de_try_from_struct_test_a : test_der_back de_try_from_struct_A_a de_try_from_struct_A_d de_try_from_struct_A_p ([97; 98; 99], tt) = Some (Ok ([97; 98; 99], tt)) /\
  test_ber_back de_try_from_struct_A_a de_try_from_struct_A_d de_try_from_struct_A_p ([97; 98; 99], tt) = Some (Ok ([97; 98; 99], tt)).
Proof. conforms. Qed.
(** line 117 *)
Example de_try_from_struct_test_b : test_der_back de_try_from_struct_B_a de_try_from_struct_B_d de_try_from_struct_B_p ([97; 98; 99], ((-2)%Z, tt)) = Some (Ok ([97; 98; 99], ((-2)%Z, tt))) /\
  test_ber_back de_try_from_struct_B_a de_try_from_struct_B_d de_try_from_struct_B_p ([97; 98; 99], ((-2)%Z, tt)) = Some (Ok ([97; 98; 99], ((-2)%Z, tt))).
Proof. conforms. Qed.
(** line 127 *)
Example de_try_from_struct_test_c : test_der_back de_try_from_struct_C_a de_try_from_struct_C_d de_try_from_struct_C_p ([97; 98; 99], tt) = Some (Ok ([97; 98; 99], tt)) /\
  test_ber_back de_try_from_struct_C_a de_try_from_struct_C_d de_try_from_struct_C_p ([97; 98; 99], tt) = Some (Ok ([97; 98; 99], tt)).
Proof. conforms. Qed.
(** line 137 *)
Example de_try_from_struct_test_d : test_der_back de_try_from_struct_D_a de_try_from_struct_D_d de_try_from_struct_D_p ((3)%Z, ([97; 98; 99], tt)) = Some (Ok ((3)%Z, ([97; 98; 99], tt))) /\
  test_ber_back de_try_from_struct_D_a de_try_from_struct_D_d de_try_from_struct_D_p ((3)%Z, ([97; 98; 99], tt)) = Some (Ok ((3)%Z, ([97; 98; 99], tt))).
Proof. conforms. Qed.

(** tests/de/try_from_enum.rs *)
Definition de_try_from_enum_X_T : list (list Type) := [[list N : Type]; [list N : Type; Z : Type]; [list N : Type]; [Z : Type; list N : Type]].
Definition de_try_from_enum_X_d : data := DEnum de_try_from_enum_X_T ({| vd_attrs := []; vd_fields := (fld [] (string_n) 1, tt) : hlist field_decl [list N : Type] |}, ({| vd_attrs := []; vd_fields := (fld [] (string_n) 1, (fld [] (int_n I8) 2, tt)) : hlist field_decl [list N : Type; Z : Type] |}, ({| vd_attrs := []; vd_fields := (fld [] (string_n) 1, tt) : hlist field_decl [list N : Type] |}, ({| vd_attrs := []; vd_fields := (fld [] (int_n I8) 1, (fld [] (string_n) 2, tt)) : hlist field_decl [Z : Type; list N : Type] |}, tt)))).
Definition de_try_from_enum_X_a : list syn_attribute := [Some [TIdent "to"; TPunct "="; TLiteral """OctetString::new"""; TPunct ","; TIdent "try_from"; TPunct "="; TLiteral """OctetString"""]].
Definition de_try_from_enum_X_p : paths (value de_try_from_enum_X_d) := whole_paths ((fun v => match v with inl a => fst a | inr (inl b) => fst b | inr (inr (inl c)) => fst c | inr (inr (inr (inl d))) => fst (snd d) | inr (inr (inr (inr e))) => match e with end end) : value de_try_from_enum_X_d -> list N) ((fun s => match s with 97 :: _ => inl (s, tt) | 98 :: _ => inr (inl (s, (2%Z, tt))) | 99 :: _ => inr (inr (inl (s, tt))) | _ => inr (inr (inr (inl (3%Z, (s, tt))))) end) : list N -> value de_try_from_enum_X_d) ser_octets de_octets.
(** line 62 *)
Example de_try_from_enum_test_xa : test_der_back de_try_from_enum_X_a de_try_from_enum_X_d de_try_from_enum_X_p (inl ([97; 97; 97], tt)) = Some (Ok (inl ([97; 97; 97], tt))) /\
  test_ber_back de_try_from_enum_X_a de_try_from_enum_X_d de_try_from_enum_X_p (inl ([97; 97; 97], tt)) = Some (Ok (inl ([97; 97; 97], tt))).
Proof. conforms. Qed.
(** line 72 *)
Example de_try_from_enum_test_xb : test_der_back de_try_from_enum_X_a de_try_from_enum_X_d de_try_from_enum_X_p (inr (inl ([98; 98; 98], ((2)%Z, tt)))) = Some (Ok (inr (inl ([98; 98; 98], ((2)%Z, tt))))) /\
  test_ber_back de_try_from_enum_X_a de_try_from_enum_X_d de_try_from_enum_X_p (inr (inl ([98; 98; 98], ((2)%Z, tt)))) = Some (Ok (inr (inl ([98; 98; 98], ((2)%Z, tt))))).
Proof. conforms. Qed.
(** line 82 *)
Example de_try_from_enum_test_xc : test_der_back de_try_from_enum_X_a de_try_from_enum_X_d de_try_from_enum_X_p (inr (inr (inl ([99; 99; 99], tt)))) = Some (Ok (inr (inr (inl ([99; 99; 99], tt))))) /\
  test_ber_back de_try_from_enum_X_a de_try_from_enum_X_d de_try_from_enum_X_p (inr (inr (inl ([99; 99; 99], tt)))) = Some (Ok (inr (inr (inl ([99; 99; 99], tt))))).
Proof. conforms. Qed.
(** line 92 *)
Example de_try_from_enum_test_xd : test_der_back de_try_from_enum_X_a de_try_from_enum_X_d de_try_from_enum_X_p (inr (inr (inr (inl ((3)%Z, ([100; 100; 100], tt)))))) = Some (Ok (inr (inr (inr (inl ((3)%Z, ([100; 100; 100], tt))))))) /\
  test_ber_back de_try_from_enum_X_a de_try_from_enum_X_d de_try_from_enum_X_p (inr (inr (inr (inl ((3)%Z, ([100; 100; 100], tt)))))) = Some (Ok (inr (inr (inr (inl ((3)%Z, ([100; 100; 100], tt))))))).
Proof. conforms. Qed.
