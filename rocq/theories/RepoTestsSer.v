(** The tests of bsn1_serde/tests/ser, run on the model: each declaration is the one of the
    file, and each example what the test of that name (at the line given) asserts. *)
From Coq Require Import String Ascii.
From Verif Require Import Base ModelError ModelIo ModelTag ModelContents ModelBuf ModelTlv ModelSerde ModelAttr ModelDerive.
From Verif Require Import RepoTests.
Local Open Scope string_scope.
Local Open Scope N_scope.
Local Open Scope list_scope.

(** tests/ser/unit_struct.rs *)
Definition ser_unit_struct_A_T : list Type := [].
Definition ser_unit_struct_A_d : data := DStruct ser_unit_struct_A_T tt.
Definition ser_unit_struct_A_a : list syn_attribute := [].
Definition ser_unit_struct_A_p : paths (value ser_unit_struct_A_d) := no_paths _.
Definition ser_unit_struct_B_T : list Type := [].
Definition ser_unit_struct_B_d : data := DStruct ser_unit_struct_B_T tt.
Definition ser_unit_struct_B_a : list syn_attribute := [None].
Definition ser_unit_struct_B_p : paths (value ser_unit_struct_B_d) := no_paths _.
Definition ser_unit_struct_C_T : list Type := [].
Definition ser_unit_struct_C_d : data := DStruct ser_unit_struct_C_T tt.
Definition ser_unit_struct_C_a : list syn_attribute := [Some [TIdent "id"; TPunct "="; TIdent "Integer"]].
Definition ser_unit_struct_C_p : paths (value ser_unit_struct_C_d) := no_paths _.
Definition ser_unit_struct_D_T : list Type := [].
Definition ser_unit_struct_D_d : data := DStruct ser_unit_struct_D_T tt.
Definition ser_unit_struct_D_a : list syn_attribute := [Some [TIdent "tag_class"; TPunct "="; TIdent "APPLICATION"]].
Definition ser_unit_struct_D_p : paths (value ser_unit_struct_D_d) := no_paths _.
Definition ser_unit_struct_E_T : list Type := [].
Definition ser_unit_struct_E_d : data := DStruct ser_unit_struct_E_T tt.
Definition ser_unit_struct_E_a : list syn_attribute := [Some [TIdent "id"; TPunct "="; TIdent "Integer"; TPunct ","; TIdent "tag_class"; TPunct "="; TIdent "APPLICATION"]].
Definition ser_unit_struct_E_p : paths (value ser_unit_struct_E_d) := no_paths _.
Definition ser_unit_struct_F_T : list Type := [].
Definition ser_unit_struct_F_d : data := DStruct ser_unit_struct_F_T tt.
Definition ser_unit_struct_F_a : list syn_attribute := [Some [TIdent "tag_pc"; TPunct "="; TIdent "CONSTRUCTED"]].
Definition ser_unit_struct_F_p : paths (value ser_unit_struct_F_d) := no_paths _.
Definition ser_unit_struct_G_T : list Type := [].
Definition ser_unit_struct_G_d : data := DStruct ser_unit_struct_G_T tt.
Definition ser_unit_struct_G_a : list syn_attribute := [Some [TIdent "id"; TPunct "="; TIdent "Integer"; TPunct ","; TIdent "tag_pc"; TPunct "="; TIdent "CONSTRUCTED"]].
Definition ser_unit_struct_G_p : paths (value ser_unit_struct_G_d) := no_paths _.
Definition ser_unit_struct_H_T : list Type := [].
Definition ser_unit_struct_H_d : data := DStruct ser_unit_struct_H_T tt.
Definition ser_unit_struct_H_a : list syn_attribute := [Some [TIdent "tag_class"; TPunct "="; TIdent "APPLICATION"; TPunct ","; TIdent "tag_pc"; TPunct "="; TIdent "CONSTRUCTED"]].
Definition ser_unit_struct_H_p : paths (value ser_unit_struct_H_d) := no_paths _.
Definition ser_unit_struct_I_T : list Type := [].
Definition ser_unit_struct_I_d : data := DStruct ser_unit_struct_I_T tt.
Definition ser_unit_struct_I_a : list syn_attribute := [Some [TIdent "id"; TPunct "="; TIdent "Integer"; TPunct ","; TIdent "tag_class"; TPunct "="; TIdent "APPLICATION"; TPunct ","; TIdent "tag_pc"; TPunct "="; TIdent "CONSTRUCTED"]].
Definition ser_unit_struct_I_p : paths (value ser_unit_struct_I_d) := no_paths _.
Definition ser_unit_struct_J_T : list Type := [].
Definition ser_unit_struct_J_d : data := DStruct ser_unit_struct_J_T tt.
Definition ser_unit_struct_J_a : list syn_attribute := [Some [TIdent "tag_num"; TPunct "="; TLiteral "0"]].
Definition ser_unit_struct_J_p : paths (value ser_unit_struct_J_d) := no_paths _.
Definition ser_unit_struct_K_T : list Type := [].
Definition ser_unit_struct_K_d : data := DStruct ser_unit_struct_K_T tt.
Definition ser_unit_struct_K_a : list syn_attribute := [Some [TIdent "id"; TPunct "="; TIdent "Integer"; TPunct ","; TIdent "tag_num"; TPunct "="; TLiteral "1"]].
Definition ser_unit_struct_K_p : paths (value ser_unit_struct_K_d) := no_paths _.
Definition ser_unit_struct_L_T : list Type := [].
Definition ser_unit_struct_L_d : data := DStruct ser_unit_struct_L_T tt.
Definition ser_unit_struct_L_a : list syn_attribute := [Some [TIdent "tag_class"; TPunct "="; TIdent "APPLICATION"; TPunct ","; TIdent "tag_num"; TPunct "="; TLiteral "0x1e"]].
Definition ser_unit_struct_L_p : paths (value ser_unit_struct_L_d) := no_paths _.
Definition ser_unit_struct_M_T : list Type := [].
Definition ser_unit_struct_M_d : data := DStruct ser_unit_struct_M_T tt.
Definition ser_unit_struct_M_a : list syn_attribute := [Some [TIdent "id"; TPunct "="; TIdent "Integer"; TPunct ","; TIdent "tag_class"; TPunct "="; TIdent "APPLICATION"; TPunct ","; TIdent "tag_num"; TPunct "="; TLiteral "0x1f"]].
Definition ser_unit_struct_M_p : paths (value ser_unit_struct_M_d) := no_paths _.
Definition ser_unit_struct_N_T : list Type := [].
Definition ser_unit_struct_N_d : data := DStruct ser_unit_struct_N_T tt.
Definition ser_unit_struct_N_a : list syn_attribute := [Some [TIdent "tag_pc"; TPunct "="; TIdent "CONSTRUCTED"; TPunct ","; TIdent "tag_num"; TPunct "="; TLiteral "0x7f"]].
Definition ser_unit_struct_N_p : paths (value ser_unit_struct_N_d) := no_paths _.
Definition ser_unit_struct_O_T : list Type := [].
Definition ser_unit_struct_O_d : data := DStruct ser_unit_struct_O_T tt.
Definition ser_unit_struct_O_a : list syn_attribute := [Some [TIdent "id"; TPunct "="; TIdent "Integer"; TPunct ","; TIdent "tag_pc"; TPunct "="; TIdent "CONSTRUCTED"; TPunct ","; TIdent "tag_num"; TPunct "="; TLiteral "0x80"]].
Definition ser_unit_struct_O_p : paths (value ser_unit_struct_O_d) := no_paths _.
Definition ser_unit_struct_P_T : list Type := [].
Definition ser_unit_struct_P_d : data := DStruct ser_unit_struct_P_T tt.
Definition ser_unit_struct_P_a : list syn_attribute := [Some [TIdent "tag_class"; TPunct "="; TIdent "APPLICATION"; TPunct ","; TIdent "tag_pc"; TPunct "="; TIdent "CONSTRUCTED"; TPunct ","; TIdent "tag_num"; TPunct "="; TLiteral "0x3fff"]].
Definition ser_unit_struct_P_p : paths (value ser_unit_struct_P_d) := no_paths _.
Definition ser_unit_struct_Q_T : list Type := [].
Definition ser_unit_struct_Q_d : data := DStruct ser_unit_struct_Q_T tt.
Definition ser_unit_struct_Q_a : list syn_attribute := [Some [TIdent "id"; TPunct "="; TIdent "Integer"; TPunct ","; TIdent "tag_class"; TPunct "="; TIdent "APPLICATION"; TPunct ","; TIdent "tag_pc"; TPunct "="; TIdent "CONSTRUCTED"; TPunct ","; TIdent "tag_num"; TPunct "="; TLiteral "0x4000"]].
Definition ser_unit_struct_Q_p : paths (value ser_unit_struct_Q_d) := no_paths _.
(** line 112 *)
Example ser_unit_struct_test_a : test_der ser_unit_struct_A_a ser_unit_struct_A_d ser_unit_struct_A_p tt = Some (Ok [48; 0]) /\
  test_id_len ser_unit_struct_A_a ser_unit_struct_A_d ser_unit_struct_A_p tt = Some (Ok (Some 1)) /\
  test_contents_len ser_unit_struct_A_a ser_unit_struct_A_d ser_unit_struct_A_p tt = Some (Ok (Some 0)).
Proof. conforms. Qed.
(** line 128 *)
Example ser_unit_struct_test_b : test_der ser_unit_struct_B_a ser_unit_struct_B_d ser_unit_struct_B_p tt = Some (Ok [48; 0]) /\
  test_id_len ser_unit_struct_B_a ser_unit_struct_B_d ser_unit_struct_B_p tt = Some (Ok (Some 1)) /\
  test_contents_len ser_unit_struct_B_a ser_unit_struct_B_d ser_unit_struct_B_p tt = Some (Ok (Some 0)).
Proof. conforms. Qed.
(** line 149 *)
Example ser_unit_struct_test_c : test_der ser_unit_struct_C_a ser_unit_struct_C_d ser_unit_struct_C_p tt = Some (Ok [2; 0]) /\
  test_id_len ser_unit_struct_C_a ser_unit_struct_C_d ser_unit_struct_C_p tt = Some (Ok (Some 1)) /\
  test_contents_len ser_unit_struct_C_a ser_unit_struct_C_d ser_unit_struct_C_p tt = Some (Ok (Some 0)).
Proof. conforms. Qed.
(** line 170 *)
Example ser_unit_struct_test_d : test_der ser_unit_struct_D_a ser_unit_struct_D_d ser_unit_struct_D_p tt = Some (Ok [112; 0]) /\
  test_id_len ser_unit_struct_D_a ser_unit_struct_D_d ser_unit_struct_D_p tt = Some (Ok (Some 1)) /\
  test_contents_len ser_unit_struct_D_a ser_unit_struct_D_d ser_unit_struct_D_p tt = Some (Ok (Some 0)).
Proof. conforms. Qed.
(** line 191 *)
Example ser_unit_struct_test_e : test_der ser_unit_struct_E_a ser_unit_struct_E_d ser_unit_struct_E_p tt = Some (Ok [66; 0]) /\
  test_id_len ser_unit_struct_E_a ser_unit_struct_E_d ser_unit_struct_E_p tt = Some (Ok (Some 1)) /\
  test_contents_len ser_unit_struct_E_a ser_unit_struct_E_d ser_unit_struct_E_p tt = Some (Ok (Some 0)).
Proof. conforms. Qed.
(** line 212 *)
Example ser_unit_struct_test_f : test_der ser_unit_struct_F_a ser_unit_struct_F_d ser_unit_struct_F_p tt = Some (Ok [48; 0]) /\
  test_id_len ser_unit_struct_F_a ser_unit_struct_F_d ser_unit_struct_F_p tt = Some (Ok (Some 1)) /\
  test_contents_len ser_unit_struct_F_a ser_unit_struct_F_d ser_unit_struct_F_p tt = Some (Ok (Some 0)).
Proof. conforms. Qed.
(** line 233 *)
Example ser_unit_struct_test_g : test_der ser_unit_struct_G_a ser_unit_struct_G_d ser_unit_struct_G_p tt = Some (Ok [34; 0]) /\
  test_id_len ser_unit_struct_G_a ser_unit_struct_G_d ser_unit_struct_G_p tt = Some (Ok (Some 1)) /\
  test_contents_len ser_unit_struct_G_a ser_unit_struct_G_d ser_unit_struct_G_p tt = Some (Ok (Some 0)).
Proof. conforms. Qed.
(** line 254 *)
Example ser_unit_struct_test_h : test_der ser_unit_struct_H_a ser_unit_struct_H_d ser_unit_struct_H_p tt = Some (Ok [112; 0]) /\
  test_id_len ser_unit_struct_H_a ser_unit_struct_H_d ser_unit_struct_H_p tt = Some (Ok (Some 1)) /\
  test_contents_len ser_unit_struct_H_a ser_unit_struct_H_d ser_unit_struct_H_p tt = Some (Ok (Some 0)).
Proof. conforms. Qed.
(** line 275 *)
Example ser_unit_struct_test_i : test_der ser_unit_struct_I_a ser_unit_struct_I_d ser_unit_struct_I_p tt = Some (Ok [98; 0]) /\
  test_id_len ser_unit_struct_I_a ser_unit_struct_I_d ser_unit_struct_I_p tt = Some (Ok (Some 1)) /\
  test_contents_len ser_unit_struct_I_a ser_unit_struct_I_d ser_unit_struct_I_p tt = Some (Ok (Some 0)).
Proof. conforms. Qed.
(** line 296 *)
Example ser_unit_struct_test_j : test_der ser_unit_struct_J_a ser_unit_struct_J_d ser_unit_struct_J_p tt = Some (Ok [32; 0]) /\
  test_id_len ser_unit_struct_J_a ser_unit_struct_J_d ser_unit_struct_J_p tt = Some (Ok (Some 1)) /\
  test_contents_len ser_unit_struct_J_a ser_unit_struct_J_d ser_unit_struct_J_p tt = Some (Ok (Some 0)).
Proof. conforms. Qed.
(** line 314 *)
Example ser_unit_struct_test_k : test_der ser_unit_struct_K_a ser_unit_struct_K_d ser_unit_struct_K_p tt = Some (Ok [1; 0]) /\
  test_id_len ser_unit_struct_K_a ser_unit_struct_K_d ser_unit_struct_K_p tt = Some (Ok (Some 1)) /\
  test_contents_len ser_unit_struct_K_a ser_unit_struct_K_d ser_unit_struct_K_p tt = Some (Ok (Some 0)).
Proof. conforms. Qed.
(** line 332 *)
Example ser_unit_struct_test_l : test_der ser_unit_struct_L_a ser_unit_struct_L_d ser_unit_struct_L_p tt = Some (Ok [126; 0]) /\
  test_id_len ser_unit_struct_L_a ser_unit_struct_L_d ser_unit_struct_L_p tt = Some (Ok (Some 1)) /\
  test_contents_len ser_unit_struct_L_a ser_unit_struct_L_d ser_unit_struct_L_p tt = Some (Ok (Some 0)).
Proof. conforms. Qed.
(** line 350 *)
Example ser_unit_struct_test_m : test_der ser_unit_struct_M_a ser_unit_struct_M_d ser_unit_struct_M_p tt = Some (Ok [95; 31; 0]) /\
  test_id_len ser_unit_struct_M_a ser_unit_struct_M_d ser_unit_struct_M_p tt = Some (Ok (Some 2)) /\
  test_contents_len ser_unit_struct_M_a ser_unit_struct_M_d ser_unit_struct_M_p tt = Some (Ok (Some 0)).
Proof. conforms. Qed.
(** line 368 *)
Example ser_unit_struct_test_n : test_der ser_unit_struct_N_a ser_unit_struct_N_d ser_unit_struct_N_p tt = Some (Ok [63; 127; 0]) /\
  test_id_len ser_unit_struct_N_a ser_unit_struct_N_d ser_unit_struct_N_p tt = Some (Ok (Some 2)) /\
  test_contents_len ser_unit_struct_N_a ser_unit_struct_N_d ser_unit_struct_N_p tt = Some (Ok (Some 0)).
Proof. conforms. Qed.
(** line 386 *)
Example ser_unit_struct_test_o : test_der ser_unit_struct_O_a ser_unit_struct_O_d ser_unit_struct_O_p tt = Some (Ok [63; 129; 0; 0]) /\
  test_id_len ser_unit_struct_O_a ser_unit_struct_O_d ser_unit_struct_O_p tt = Some (Ok (Some 3)) /\
  test_contents_len ser_unit_struct_O_a ser_unit_struct_O_d ser_unit_struct_O_p tt = Some (Ok (Some 0)).
Proof. conforms. Qed.
(** line 404 *)
Example ser_unit_struct_test_p : test_der ser_unit_struct_P_a ser_unit_struct_P_d ser_unit_struct_P_p tt = Some (Ok [127; 255; 127; 0]) /\
  test_id_len ser_unit_struct_P_a ser_unit_struct_P_d ser_unit_struct_P_p tt = Some (Ok (Some 3)) /\
  test_contents_len ser_unit_struct_P_a ser_unit_struct_P_d ser_unit_struct_P_p tt = Some (Ok (Some 0)).
Proof. conforms. Qed.
(** line 422 *)
Example ser_unit_struct_test_q : test_der ser_unit_struct_Q_a ser_unit_struct_Q_d ser_unit_struct_Q_p tt = Some (Ok [127; 129; 128; 0; 0]) /\
  test_id_len ser_unit_struct_Q_a ser_unit_struct_Q_d ser_unit_struct_Q_p tt = Some (Ok (Some 4)) /\
  test_contents_len ser_unit_struct_Q_a ser_unit_struct_Q_d ser_unit_struct_Q_p tt = Some (Ok (Some 0)).
Proof. conforms. Qed.

(** tests/ser/tuple_struct.rs *)
Definition ser_tuple_struct_A_T : list Type := [].
Definition ser_tuple_struct_A_d : data := DStruct ser_tuple_struct_A_T tt.
Definition ser_tuple_struct_A_a : list syn_attribute := [].
Definition ser_tuple_struct_A_p : paths (value ser_tuple_struct_A_d) := no_paths _.
Definition ser_tuple_struct_B_T : list Type := [Z : Type; list N : Type].
Definition ser_tuple_struct_B_d : data := DStruct ser_tuple_struct_B_T (fld [] (int_n I32) 1, (fld [] (string_n) 2, tt)).
Definition ser_tuple_struct_B_a : list syn_attribute := [Some []].
Definition ser_tuple_struct_B_p : paths (value ser_tuple_struct_B_d) := no_paths _.
Definition ser_tuple_struct_C_T : list Type := [Z : Type; list N : Type].
Definition ser_tuple_struct_C_d : data := DStruct ser_tuple_struct_C_T (fld [] (int_n I32) 1, (fld [] (string_n) 2, tt)).
Definition ser_tuple_struct_C_a : list syn_attribute := [Some [TIdent "id"; TPunct "="; TIdent "Set"]].
Definition ser_tuple_struct_C_p : paths (value ser_tuple_struct_C_d) := no_paths _.
Definition ser_tuple_struct_D_T : list Type := [Z : Type; list N : Type].
Definition ser_tuple_struct_D_d : data := DStruct ser_tuple_struct_D_T (fld [] (int_n I32) 1, (fld [] (string_n) 2, tt)).
Definition ser_tuple_struct_D_a : list syn_attribute := [Some [TIdent "tag_class"; TPunct "="; TIdent "UNIVERSAL"]].
Definition ser_tuple_struct_D_p : paths (value ser_tuple_struct_D_d) := no_paths _.
Definition ser_tuple_struct_E_T : list Type := [Z : Type; list N : Type].
Definition ser_tuple_struct_E_d : data := DStruct ser_tuple_struct_E_T (fld [] (int_n I32) 1, (fld [] (string_n) 2, tt)).
Definition ser_tuple_struct_E_a : list syn_attribute := [Some [TIdent "tag_class"; TPunct "="; TIdent "UNIVERSAL"; TPunct ","; TIdent "id"; TPunct "="; TIdent "Set"]].
Definition ser_tuple_struct_E_p : paths (value ser_tuple_struct_E_d) := no_paths _.
Definition ser_tuple_struct_F_T : list Type := [Z : Type; list N : Type].
Definition ser_tuple_struct_F_d : data := DStruct ser_tuple_struct_F_T (fld [] (int_n I32) 1, (fld [] (string_n) 2, tt)).
Definition ser_tuple_struct_F_a : list syn_attribute := [Some [TIdent "tag_pc"; TPunct "="; TIdent "CONSTRUCTED"]].
Definition ser_tuple_struct_F_p : paths (value ser_tuple_struct_F_d) := no_paths _.
Definition ser_tuple_struct_G_T : list Type := [Z : Type; list N : Type].
Definition ser_tuple_struct_G_d : data := DStruct ser_tuple_struct_G_T (fld [] (int_n I32) 1, (fld [] (string_n) 2, tt)).
Definition ser_tuple_struct_G_a : list syn_attribute := [Some [TIdent "tag_pc"; TPunct "="; TIdent "CONSTRUCTED"; TPunct ","; TIdent "id"; TPunct "="; TIdent "Set"]].
Definition ser_tuple_struct_G_p : paths (value ser_tuple_struct_G_d) := no_paths _.
Definition ser_tuple_struct_H_T : list Type := [Z : Type; list N : Type].
Definition ser_tuple_struct_H_d : data := DStruct ser_tuple_struct_H_T (fld [] (int_n I32) 1, (fld [] (string_n) 2, tt)).
Definition ser_tuple_struct_H_a : list syn_attribute := [Some [TIdent "tag_pc"; TPunct "="; TIdent "CONSTRUCTED"; TPunct ","; TIdent "tag_class"; TPunct "="; TIdent "UNIVERSAL"]].
Definition ser_tuple_struct_H_p : paths (value ser_tuple_struct_H_d) := no_paths _.
Definition ser_tuple_struct_I_T : list Type := [Z : Type; list N : Type].
Definition ser_tuple_struct_I_d : data := DStruct ser_tuple_struct_I_T (fld [] (int_n I32) 1, (fld [] (string_n) 2, tt)).
Definition ser_tuple_struct_I_a : list syn_attribute := [Some [TIdent "tag_pc"; TPunct "="; TIdent "CONSTRUCTED"; TPunct ","; TIdent "tag_class"; TPunct "="; TIdent "UNIVERSAL"; TPunct ","; TIdent "id"; TPunct "="; TIdent "Set"]].
Definition ser_tuple_struct_I_p : paths (value ser_tuple_struct_I_d) := no_paths _.
Definition ser_tuple_struct_J_T : list Type := [Z : Type; list N : Type].
Definition ser_tuple_struct_J_d : data := DStruct ser_tuple_struct_J_T (fld [] (int_n I32) 1, (fld [] (string_n) 2, tt)).
Definition ser_tuple_struct_J_a : list syn_attribute := [Some [TIdent "tag_num"; TPunct "="; TLiteral "0"]].
Definition ser_tuple_struct_J_p : paths (value ser_tuple_struct_J_d) := no_paths _.
Definition ser_tuple_struct_K_T : list Type := [Z : Type; list N : Type].
Definition ser_tuple_struct_K_d : data := DStruct ser_tuple_struct_K_T (fld [] (int_n I32) 1, (fld [] (string_n) 2, tt)).
Definition ser_tuple_struct_K_a : list syn_attribute := [Some [TIdent "tag_num"; TPunct "="; TLiteral "1"; TPunct ","; TIdent "id"; TPunct "="; TIdent "Set"]].
Definition ser_tuple_struct_K_p : paths (value ser_tuple_struct_K_d) := no_paths _.
Definition ser_tuple_struct_L_T : list Type := [Z : Type; list N : Type].
Definition ser_tuple_struct_L_d : data := DStruct ser_tuple_struct_L_T (fld [] (int_n I32) 1, (fld [] (string_n) 2, tt)).
Definition ser_tuple_struct_L_a : list syn_attribute := [Some [TIdent "tag_num"; TPunct "="; TLiteral "0x1e"; TPunct ","; TIdent "tag_class"; TPunct "="; TIdent "UNIVERSAL"]].
Definition ser_tuple_struct_L_p : paths (value ser_tuple_struct_L_d) := no_paths _.
Definition ser_tuple_struct_M_T : list Type := [Z : Type; list N : Type].
Definition ser_tuple_struct_M_d : data := DStruct ser_tuple_struct_M_T (fld [] (int_n I32) 1, (fld [] (string_n) 2, tt)).
Definition ser_tuple_struct_M_a : list syn_attribute := [Some [TIdent "tag_num"; TPunct "="; TLiteral "0x1f"; TPunct ","; TIdent "tag_class"; TPunct "="; TIdent "UNIVERSAL"; TPunct ","; TIdent "id"; TPunct "="; TIdent "Set"]].
Definition ser_tuple_struct_M_p : paths (value ser_tuple_struct_M_d) := no_paths _.
Definition ser_tuple_struct_N_T : list Type := [Z : Type; list N : Type].
Definition ser_tuple_struct_N_d : data := DStruct ser_tuple_struct_N_T (fld [] (int_n I32) 1, (fld [] (string_n) 2, tt)).
Definition ser_tuple_struct_N_a : list syn_attribute := [Some [TIdent "tag_num"; TPunct "="; TLiteral "0x7f"; TPunct ","; TIdent "tag_pc"; TPunct "="; TIdent "CONSTRUCTED"]].
Definition ser_tuple_struct_N_p : paths (value ser_tuple_struct_N_d) := no_paths _.
Definition ser_tuple_struct_O_T : list Type := [Z : Type; list N : Type].
Definition ser_tuple_struct_O_d : data := DStruct ser_tuple_struct_O_T (fld [] (int_n I32) 1, (fld [] (string_n) 2, tt)).
Definition ser_tuple_struct_O_a : list syn_attribute := [Some [TIdent "tag_num"; TPunct "="; TLiteral "0x80"; TPunct ","; TIdent "tag_pc"; TPunct "="; TIdent "CONSTRUCTED"; TPunct ","; TIdent "id"; TPunct "="; TIdent "Set"]].
Definition ser_tuple_struct_O_p : paths (value ser_tuple_struct_O_d) := no_paths _.
Definition ser_tuple_struct_P_T : list Type := [Z : Type; list N : Type].
Definition ser_tuple_struct_P_d : data := DStruct ser_tuple_struct_P_T (fld [] (int_n I32) 1, (fld [] (string_n) 2, tt)).
Definition ser_tuple_struct_P_a : list syn_attribute := [Some [TIdent "tag_num"; TPunct "="; TLiteral "0x3fff"; TPunct ","; TIdent "tag_pc"; TPunct "="; TIdent "CONSTRUCTED"; TPunct ","; TIdent "tag_class"; TPunct "="; TIdent "UNIVERSAL"]].
Definition ser_tuple_struct_P_p : paths (value ser_tuple_struct_P_d) := no_paths _.
Definition ser_tuple_struct_Q_T : list Type := [Z : Type; list N : Type].
Definition ser_tuple_struct_Q_d : data := DStruct ser_tuple_struct_Q_T (fld [] (int_n I32) 1, (fld [] (string_n) 2, tt)).
Definition ser_tuple_struct_Q_a : list syn_attribute := [Some [TIdent "tag_num"; TPunct "="; TLiteral "0x4000"; TPunct ","; TIdent "tag_pc"; TPunct "="; TIdent "CONSTRUCTED"; TPunct ","; TIdent "tag_class"; TPunct "="; TIdent "UNIVERSAL"; TPunct ","; TIdent "id"; TPunct "="; TIdent "Set"]].
Definition ser_tuple_struct_Q_p : paths (value ser_tuple_struct_Q_d) := no_paths _.
(** line 108 *)
Example ser_tuple_struct_test_a : test_der ser_tuple_struct_A_a ser_tuple_struct_A_d ser_tuple_struct_A_p tt = Some (Ok [48; 0]) /\
  test_id_len ser_tuple_struct_A_a ser_tuple_struct_A_d ser_tuple_struct_A_p tt = Some (Ok (Some 1)) /\
  test_contents_len ser_tuple_struct_A_a ser_tuple_struct_A_d ser_tuple_struct_A_p tt = Some (Ok (Some 0)).
Proof. conforms. Qed.
(** line 124 *)
Example ser_tuple_struct_test_b : test_der ser_tuple_struct_B_a ser_tuple_struct_B_d ser_tuple_struct_B_p ((315)%Z, ([102; 111; 111], tt)) = Some (Ok [48; 9; 2; 2; 1; 59; 12; 3; 102; 111; 111]) /\
  test_id_len ser_tuple_struct_B_a ser_tuple_struct_B_d ser_tuple_struct_B_p ((315)%Z, ([102; 111; 111], tt)) = Some (Ok (Some 1)) /\
  test_contents_len ser_tuple_struct_B_a ser_tuple_struct_B_d ser_tuple_struct_B_p ((315)%Z, ([102; 111; 111], tt)) = Some (Ok (Some 9)).
Proof. conforms. Qed.
(** line 158 *)
Example ser_tuple_struct_test_c : test_der ser_tuple_struct_C_a ser_tuple_struct_C_d ser_tuple_struct_C_p ((315)%Z, ([102; 111; 111], tt)) = Some (Ok [49; 9; 2; 2; 1; 59; 12; 3; 102; 111; 111]) /\
  test_id_len ser_tuple_struct_C_a ser_tuple_struct_C_d ser_tuple_struct_C_p ((315)%Z, ([102; 111; 111], tt)) = Some (Ok (Some 1)) /\
  test_contents_len ser_tuple_struct_C_a ser_tuple_struct_C_d ser_tuple_struct_C_p ((315)%Z, ([102; 111; 111], tt)) = Some (Ok (Some 9)).
Proof. conforms. Qed.
(** line 189 *)
Example ser_tuple_struct_test_d : test_der ser_tuple_struct_D_a ser_tuple_struct_D_d ser_tuple_struct_D_p ((315)%Z, ([102; 111; 111], tt)) = Some (Ok [48; 9; 2; 2; 1; 59; 12; 3; 102; 111; 111]) /\
  test_id_len ser_tuple_struct_D_a ser_tuple_struct_D_d ser_tuple_struct_D_p ((315)%Z, ([102; 111; 111], tt)) = Some (Ok (Some 1)) /\
  test_contents_len ser_tuple_struct_D_a ser_tuple_struct_D_d ser_tuple_struct_D_p ((315)%Z, ([102; 111; 111], tt)) = Some (Ok (Some 9)).
Proof. conforms. Qed.
(** line 223 *)
Example ser_tuple_struct_test_e : test_der ser_tuple_struct_E_a ser_tuple_struct_E_d ser_tuple_struct_E_p ((315)%Z, ([102; 111; 111], tt)) = Some (Ok [49; 9; 2; 2; 1; 59; 12; 3; 102; 111; 111]) /\
  test_id_len ser_tuple_struct_E_a ser_tuple_struct_E_d ser_tuple_struct_E_p ((315)%Z, ([102; 111; 111], tt)) = Some (Ok (Some 1)) /\
  test_contents_len ser_tuple_struct_E_a ser_tuple_struct_E_d ser_tuple_struct_E_p ((315)%Z, ([102; 111; 111], tt)) = Some (Ok (Some 9)).
Proof. conforms. Qed.
(** line 254 *)
Example ser_tuple_struct_test_f : test_der ser_tuple_struct_F_a ser_tuple_struct_F_d ser_tuple_struct_F_p ((315)%Z, ([102; 111; 111], tt)) = Some (Ok [48; 9; 2; 2; 1; 59; 12; 3; 102; 111; 111]) /\
  test_id_len ser_tuple_struct_F_a ser_tuple_struct_F_d ser_tuple_struct_F_p ((315)%Z, ([102; 111; 111], tt)) = Some (Ok (Some 1)) /\
  test_contents_len ser_tuple_struct_F_a ser_tuple_struct_F_d ser_tuple_struct_F_p ((315)%Z, ([102; 111; 111], tt)) = Some (Ok (Some 9)).
Proof. conforms. Qed.
(** line 288 *)
Example ser_tuple_struct_test_g : test_der ser_tuple_struct_G_a ser_tuple_struct_G_d ser_tuple_struct_G_p ((315)%Z, ([102; 111; 111], tt)) = Some (Ok [49; 9; 2; 2; 1; 59; 12; 3; 102; 111; 111]) /\
  test_id_len ser_tuple_struct_G_a ser_tuple_struct_G_d ser_tuple_struct_G_p ((315)%Z, ([102; 111; 111], tt)) = Some (Ok (Some 1)) /\
  test_contents_len ser_tuple_struct_G_a ser_tuple_struct_G_d ser_tuple_struct_G_p ((315)%Z, ([102; 111; 111], tt)) = Some (Ok (Some 9)).
Proof. conforms. Qed.
(** line 319 *)
Example ser_tuple_struct_test_h : test_der ser_tuple_struct_H_a ser_tuple_struct_H_d ser_tuple_struct_H_p ((315)%Z, ([102; 111; 111], tt)) = Some (Ok [48; 9; 2; 2; 1; 59; 12; 3; 102; 111; 111]) /\
  test_id_len ser_tuple_struct_H_a ser_tuple_struct_H_d ser_tuple_struct_H_p ((315)%Z, ([102; 111; 111], tt)) = Some (Ok (Some 1)) /\
  test_contents_len ser_tuple_struct_H_a ser_tuple_struct_H_d ser_tuple_struct_H_p ((315)%Z, ([102; 111; 111], tt)) = Some (Ok (Some 9)).
Proof. conforms. Qed.
(** line 353 *)
Example ser_tuple_struct_test_i : test_der ser_tuple_struct_I_a ser_tuple_struct_I_d ser_tuple_struct_I_p ((315)%Z, ([102; 111; 111], tt)) = Some (Ok [49; 9; 2; 2; 1; 59; 12; 3; 102; 111; 111]) /\
  test_id_len ser_tuple_struct_I_a ser_tuple_struct_I_d ser_tuple_struct_I_p ((315)%Z, ([102; 111; 111], tt)) = Some (Ok (Some 1)) /\
  test_contents_len ser_tuple_struct_I_a ser_tuple_struct_I_d ser_tuple_struct_I_p ((315)%Z, ([102; 111; 111], tt)) = Some (Ok (Some 9)).
Proof. conforms. Qed.
(** line 384 *)
Example ser_tuple_struct_test_j : test_der ser_tuple_struct_J_a ser_tuple_struct_J_d ser_tuple_struct_J_p ((315)%Z, ([102; 111; 111], tt)) = Some (Ok [32; 9; 2; 2; 1; 59; 12; 3; 102; 111; 111]) /\
  test_id_len ser_tuple_struct_J_a ser_tuple_struct_J_d ser_tuple_struct_J_p ((315)%Z, ([102; 111; 111], tt)) = Some (Ok (Some 1)) /\
  test_contents_len ser_tuple_struct_J_a ser_tuple_struct_J_d ser_tuple_struct_J_p ((315)%Z, ([102; 111; 111], tt)) = Some (Ok (Some 9)).
Proof. conforms. Qed.
(** line 415 *)
Example ser_tuple_struct_test_k : test_der ser_tuple_struct_K_a ser_tuple_struct_K_d ser_tuple_struct_K_p ((315)%Z, ([102; 111; 111], tt)) = Some (Ok [33; 9; 2; 2; 1; 59; 12; 3; 102; 111; 111]) /\
  test_id_len ser_tuple_struct_K_a ser_tuple_struct_K_d ser_tuple_struct_K_p ((315)%Z, ([102; 111; 111], tt)) = Some (Ok (Some 1)) /\
  test_contents_len ser_tuple_struct_K_a ser_tuple_struct_K_d ser_tuple_struct_K_p ((315)%Z, ([102; 111; 111], tt)) = Some (Ok (Some 9)).
Proof. conforms. Qed.
(** line 446 *)
Example ser_tuple_struct_test_l : test_der ser_tuple_struct_L_a ser_tuple_struct_L_d ser_tuple_struct_L_p ((315)%Z, ([102; 111; 111], tt)) = Some (Ok [62; 9; 2; 2; 1; 59; 12; 3; 102; 111; 111]) /\
  test_id_len ser_tuple_struct_L_a ser_tuple_struct_L_d ser_tuple_struct_L_p ((315)%Z, ([102; 111; 111], tt)) = Some (Ok (Some 1)) /\
  test_contents_len ser_tuple_struct_L_a ser_tuple_struct_L_d ser_tuple_struct_L_p ((315)%Z, ([102; 111; 111], tt)) = Some (Ok (Some 9)).
Proof. conforms. Qed.
(** line 477 *)
Example ser_tuple_struct_test_m : test_der ser_tuple_struct_M_a ser_tuple_struct_M_d ser_tuple_struct_M_p ((315)%Z, ([102; 111; 111], tt)) = Some (Ok [63; 31; 9; 2; 2; 1; 59; 12; 3; 102; 111; 111]) /\
  test_id_len ser_tuple_struct_M_a ser_tuple_struct_M_d ser_tuple_struct_M_p ((315)%Z, ([102; 111; 111], tt)) = Some (Ok (Some 2)) /\
  test_contents_len ser_tuple_struct_M_a ser_tuple_struct_M_d ser_tuple_struct_M_p ((315)%Z, ([102; 111; 111], tt)) = Some (Ok (Some 9)).
Proof. conforms. Qed.
(** line 508 *)
Example ser_tuple_struct_test_n : test_der ser_tuple_struct_N_a ser_tuple_struct_N_d ser_tuple_struct_N_p ((315)%Z, ([102; 111; 111], tt)) = Some (Ok [63; 127; 9; 2; 2; 1; 59; 12; 3; 102; 111; 111]) /\
  test_id_len ser_tuple_struct_N_a ser_tuple_struct_N_d ser_tuple_struct_N_p ((315)%Z, ([102; 111; 111], tt)) = Some (Ok (Some 2)) /\
  test_contents_len ser_tuple_struct_N_a ser_tuple_struct_N_d ser_tuple_struct_N_p ((315)%Z, ([102; 111; 111], tt)) = Some (Ok (Some 9)).
Proof. conforms. Qed.
(** line 539 *)
Example ser_tuple_struct_test_o : test_der ser_tuple_struct_O_a ser_tuple_struct_O_d ser_tuple_struct_O_p ((315)%Z, ([102; 111; 111], tt)) = Some (Ok [63; 129; 0; 9; 2; 2; 1; 59; 12; 3; 102; 111; 111]) /\
  test_id_len ser_tuple_struct_O_a ser_tuple_struct_O_d ser_tuple_struct_O_p ((315)%Z, ([102; 111; 111], tt)) = Some (Ok (Some 3)) /\
  test_contents_len ser_tuple_struct_O_a ser_tuple_struct_O_d ser_tuple_struct_O_p ((315)%Z, ([102; 111; 111], tt)) = Some (Ok (Some 9)).
Proof. conforms. Qed.
(** line 570 *)
Example ser_tuple_struct_test_p : test_der ser_tuple_struct_P_a ser_tuple_struct_P_d ser_tuple_struct_P_p ((315)%Z, ([102; 111; 111], tt)) = Some (Ok [63; 255; 127; 9; 2; 2; 1; 59; 12; 3; 102; 111; 111]) /\
  test_id_len ser_tuple_struct_P_a ser_tuple_struct_P_d ser_tuple_struct_P_p ((315)%Z, ([102; 111; 111], tt)) = Some (Ok (Some 3)) /\
  test_contents_len ser_tuple_struct_P_a ser_tuple_struct_P_d ser_tuple_struct_P_p ((315)%Z, ([102; 111; 111], tt)) = Some (Ok (Some 9)).
Proof. conforms. Qed.
(** line 601 *)
Example ser_tuple_struct_test_q : test_der ser_tuple_struct_Q_a ser_tuple_struct_Q_d ser_tuple_struct_Q_p ((315)%Z, ([102; 111; 111], tt)) = Some (Ok [63; 129; 128; 0; 9; 2; 2; 1; 59; 12; 3; 102; 111; 111]) /\
  test_id_len ser_tuple_struct_Q_a ser_tuple_struct_Q_d ser_tuple_struct_Q_p ((315)%Z, ([102; 111; 111], tt)) = Some (Ok (Some 4)) /\
  test_contents_len ser_tuple_struct_Q_a ser_tuple_struct_Q_d ser_tuple_struct_Q_p ((315)%Z, ([102; 111; 111], tt)) = Some (Ok (Some 9)).
Proof. conforms. Qed.

(** tests/ser/named_field_struct.rs *)
Definition ser_named_field_struct_A_T : list Type := [].
Definition ser_named_field_struct_A_d : data := DStruct ser_named_field_struct_A_T tt.
Definition ser_named_field_struct_A_a : list syn_attribute := [].
Definition ser_named_field_struct_A_p : paths (value ser_named_field_struct_A_d) := no_paths _.
Definition ser_named_field_struct_B_T : list Type := [Z : Type; list N : Type].
Definition ser_named_field_struct_B_d : data := DStruct ser_named_field_struct_B_T (fld [] (int_n I32) 1, (fld [] (string_n) 2, tt)).
Definition ser_named_field_struct_B_a : list syn_attribute := [Some []].
Definition ser_named_field_struct_B_p : paths (value ser_named_field_struct_B_d) := no_paths _.
Definition ser_named_field_struct_C_T : list Type := [Z : Type; list N : Type].
Definition ser_named_field_struct_C_d : data := DStruct ser_named_field_struct_C_T (fld [] (int_n I32) 1, (fld [] (string_n) 2, tt)).
Definition ser_named_field_struct_C_a : list syn_attribute := [Some [TIdent "id"; TPunct "="; TIdent "Set"]].
Definition ser_named_field_struct_C_p : paths (value ser_named_field_struct_C_d) := no_paths _.
Definition ser_named_field_struct_D_T : list Type := [Z : Type; list N : Type].
Definition ser_named_field_struct_D_d : data := DStruct ser_named_field_struct_D_T (fld [] (int_n I32) 1, (fld [] (string_n) 2, tt)).
Definition ser_named_field_struct_D_a : list syn_attribute := [Some [TIdent "tag_class"; TPunct "="; TIdent "CONTEXT_SPECIFIC"]].
Definition ser_named_field_struct_D_p : paths (value ser_named_field_struct_D_d) := no_paths _.
Definition ser_named_field_struct_E_T : list Type := [Z : Type; list N : Type].
Definition ser_named_field_struct_E_d : data := DStruct ser_named_field_struct_E_T (fld [] (int_n I32) 1, (fld [] (string_n) 2, tt)).
Definition ser_named_field_struct_E_a : list syn_attribute := [Some [TIdent "tag_class"; TPunct "="; TIdent "CONTEXT_SPECIFIC"; TPunct ","; TIdent "id"; TPunct "="; TIdent "Set"]].
Definition ser_named_field_struct_E_p : paths (value ser_named_field_struct_E_d) := no_paths _.
Definition ser_named_field_struct_F_T : list Type := [Z : Type; list N : Type].
Definition ser_named_field_struct_F_d : data := DStruct ser_named_field_struct_F_T (fld [] (int_n I32) 1, (fld [] (string_n) 2, tt)).
Definition ser_named_field_struct_F_a : list syn_attribute := [Some [TIdent "tag_pc"; TPunct "="; TIdent "PRIMITIVE"]].
Definition ser_named_field_struct_F_p : paths (value ser_named_field_struct_F_d) := no_paths _.
Definition ser_named_field_struct_G_T : list Type := [Z : Type; list N : Type].
Definition ser_named_field_struct_G_d : data := DStruct ser_named_field_struct_G_T (fld [] (int_n I32) 1, (fld [] (string_n) 2, tt)).
Definition ser_named_field_struct_G_a : list syn_attribute := [Some [TIdent "tag_pc"; TPunct "="; TIdent "PRIMITIVE"; TPunct ","; TIdent "id"; TPunct "="; TIdent "Set"]].
Definition ser_named_field_struct_G_p : paths (value ser_named_field_struct_G_d) := no_paths _.
Definition ser_named_field_struct_H_T : list Type := [Z : Type; list N : Type].
Definition ser_named_field_struct_H_d : data := DStruct ser_named_field_struct_H_T (fld [] (int_n I32) 1, (fld [] (string_n) 2, tt)).
Definition ser_named_field_struct_H_a : list syn_attribute := [Some [TIdent "tag_pc"; TPunct "="; TIdent "PRIMITIVE"; TPunct ","; TIdent "tag_class"; TPunct "="; TIdent "CONTEXT_SPECIFIC"]].
Definition ser_named_field_struct_H_p : paths (value ser_named_field_struct_H_d) := no_paths _.
Definition ser_named_field_struct_I_T : list Type := [Z : Type; list N : Type].
Definition ser_named_field_struct_I_d : data := DStruct ser_named_field_struct_I_T (fld [] (int_n I32) 1, (fld [] (string_n) 2, tt)).
Definition ser_named_field_struct_I_a : list syn_attribute := [Some [TIdent "tag_pc"; TPunct "="; TIdent "PRIMITIVE"; TPunct ","; TIdent "tag_class"; TPunct "="; TIdent "CONTEXT_SPECIFIC"; TPunct ","; TIdent "id"; TPunct "="; TIdent "Set"]].
Definition ser_named_field_struct_I_p : paths (value ser_named_field_struct_I_d) := no_paths _.
Definition ser_named_field_struct_J_T : list Type := [Z : Type; list N : Type].
Definition ser_named_field_struct_J_d : data := DStruct ser_named_field_struct_J_T (fld [] (int_n I32) 1, (fld [] (string_n) 2, tt)).
Definition ser_named_field_struct_J_a : list syn_attribute := [Some [TIdent "tag_num"; TPunct "="; TLiteral "0"]].
Definition ser_named_field_struct_J_p : paths (value ser_named_field_struct_J_d) := no_paths _.
Definition ser_named_field_struct_K_T : list Type := [Z : Type; list N : Type].
Definition ser_named_field_struct_K_d : data := DStruct ser_named_field_struct_K_T (fld [] (int_n I32) 1, (fld [] (string_n) 2, tt)).
Definition ser_named_field_struct_K_a : list syn_attribute := [Some [TIdent "tag_num"; TPunct "="; TLiteral "1"; TPunct ","; TIdent "id"; TPunct "="; TIdent "Set"]].
Definition ser_named_field_struct_K_p : paths (value ser_named_field_struct_K_d) := no_paths _.
Definition ser_named_field_struct_L_T : list Type := [Z : Type; list N : Type].
Definition ser_named_field_struct_L_d : data := DStruct ser_named_field_struct_L_T (fld [] (int_n I32) 1, (fld [] (string_n) 2, tt)).
Definition ser_named_field_struct_L_a : list syn_attribute := [Some [TIdent "tag_num"; TPunct "="; TLiteral "0x1e"; TPunct ","; TIdent "tag_class"; TPunct "="; TIdent "CONTEXT_SPECIFIC"]].
Definition ser_named_field_struct_L_p : paths (value ser_named_field_struct_L_d) := no_paths _.
Definition ser_named_field_struct_M_T : list Type := [Z : Type; list N : Type].
Definition ser_named_field_struct_M_d : data := DStruct ser_named_field_struct_M_T (fld [] (int_n I32) 1, (fld [] (string_n) 2, tt)).
Definition ser_named_field_struct_M_a : list syn_attribute := [Some [TIdent "tag_num"; TPunct "="; TLiteral "0x1f"; TPunct ","; TIdent "tag_class"; TPunct "="; TIdent "CONTEXT_SPECIFIC"; TPunct ","; TIdent "id"; TPunct "="; TIdent "Set"]].
Definition ser_named_field_struct_M_p : paths (value ser_named_field_struct_M_d) := no_paths _.
Definition ser_named_field_struct_N_T : list Type := [Z : Type; list N : Type].
Definition ser_named_field_struct_N_d : data := DStruct ser_named_field_struct_N_T (fld [] (int_n I32) 1, (fld [] (string_n) 2, tt)).
Definition ser_named_field_struct_N_a : list syn_attribute := [Some [TIdent "tag_num"; TPunct "="; TLiteral "0x7f"; TPunct ","; TIdent "tag_pc"; TPunct "="; TIdent "PRIMITIVE"]].
Definition ser_named_field_struct_N_p : paths (value ser_named_field_struct_N_d) := no_paths _.
Definition ser_named_field_struct_O_T : list Type := [Z : Type; list N : Type].
Definition ser_named_field_struct_O_d : data := DStruct ser_named_field_struct_O_T (fld [] (int_n I32) 1, (fld [] (string_n) 2, tt)).
Definition ser_named_field_struct_O_a : list syn_attribute := [Some [TIdent "tag_num"; TPunct "="; TLiteral "0x80"; TPunct ","; TIdent "tag_pc"; TPunct "="; TIdent "PRIMITIVE"; TPunct ","; TIdent "id"; TPunct "="; TIdent "Set"]].
Definition ser_named_field_struct_O_p : paths (value ser_named_field_struct_O_d) := no_paths _.
Definition ser_named_field_struct_P_T : list Type := [Z : Type; list N : Type].
Definition ser_named_field_struct_P_d : data := DStruct ser_named_field_struct_P_T (fld [] (int_n I32) 1, (fld [] (string_n) 2, tt)).
Definition ser_named_field_struct_P_a : list syn_attribute := [Some [TIdent "tag_num"; TPunct "="; TLiteral "0x3fff"; TPunct ","; TIdent "tag_pc"; TPunct "="; TIdent "PRIMITIVE"; TPunct ","; TIdent "tag_class"; TPunct "="; TIdent "CONTEXT_SPECIFIC"]].
Definition ser_named_field_struct_P_p : paths (value ser_named_field_struct_P_d) := no_paths _.
Definition ser_named_field_struct_Q_T : list Type := [Z : Type; list N : Type].
Definition ser_named_field_struct_Q_d : data := DStruct ser_named_field_struct_Q_T (fld [] (int_n I32) 1, (fld [] (string_n) 2, tt)).
Definition ser_named_field_struct_Q_a : list syn_attribute := [Some [TIdent "tag_num"; TPunct "="; TLiteral "0x4000"; TPunct ","; TIdent "tag_pc"; TPunct "="; TIdent "PRIMITIVE"; TPunct ","; TIdent "tag_class"; TPunct "="; TIdent "CONTEXT_SPECIFIC"; TPunct ","; TIdent "id"; TPunct "="; TIdent "Set"]].
Definition ser_named_field_struct_Q_p : paths (value ser_named_field_struct_Q_d) := no_paths _.
(** line 156 *)
Example ser_named_field_struct_test_a : test_der ser_named_field_struct_A_a ser_named_field_struct_A_d ser_named_field_struct_A_p tt = Some (Ok [48; 0]) /\
  test_id_len ser_named_field_struct_A_a ser_named_field_struct_A_d ser_named_field_struct_A_p tt = Some (Ok (Some 1)) /\
  test_contents_len ser_named_field_struct_A_a ser_named_field_struct_A_d ser_named_field_struct_A_p tt = Some (Ok (Some 0)).
Proof. conforms. Qed.
(** line 172 *)
Example ser_named_field_struct_test_b : test_der ser_named_field_struct_B_a ser_named_field_struct_B_d ser_named_field_struct_B_p ((315)%Z, ([102; 111; 111], tt)) = Some (Ok [48; 9; 2; 2; 1; 59; 12; 3; 102; 111; 111]) /\
  test_id_len ser_named_field_struct_B_a ser_named_field_struct_B_d ser_named_field_struct_B_p ((315)%Z, ([102; 111; 111], tt)) = Some (Ok (Some 1)) /\
  test_contents_len ser_named_field_struct_B_a ser_named_field_struct_B_d ser_named_field_struct_B_p ((315)%Z, ([102; 111; 111], tt)) = Some (Ok (Some 9)).
Proof. conforms. Qed.
(** line 209 *)
Example ser_named_field_struct_test_c : test_der ser_named_field_struct_C_a ser_named_field_struct_C_d ser_named_field_struct_C_p ((315)%Z, ([102; 111; 111], tt)) = Some (Ok [49; 9; 2; 2; 1; 59; 12; 3; 102; 111; 111]) /\
  test_id_len ser_named_field_struct_C_a ser_named_field_struct_C_d ser_named_field_struct_C_p ((315)%Z, ([102; 111; 111], tt)) = Some (Ok (Some 1)) /\
  test_contents_len ser_named_field_struct_C_a ser_named_field_struct_C_d ser_named_field_struct_C_p ((315)%Z, ([102; 111; 111], tt)) = Some (Ok (Some 9)).
Proof. conforms. Qed.
(** line 243 *)
Example ser_named_field_struct_test_d : test_der ser_named_field_struct_D_a ser_named_field_struct_D_d ser_named_field_struct_D_p ((315)%Z, ([102; 111; 111], tt)) = Some (Ok [176; 9; 2; 2; 1; 59; 12; 3; 102; 111; 111]) /\
  test_id_len ser_named_field_struct_D_a ser_named_field_struct_D_d ser_named_field_struct_D_p ((315)%Z, ([102; 111; 111], tt)) = Some (Ok (Some 1)) /\
  test_contents_len ser_named_field_struct_D_a ser_named_field_struct_D_d ser_named_field_struct_D_p ((315)%Z, ([102; 111; 111], tt)) = Some (Ok (Some 9)).
Proof. conforms. Qed.
(** line 280 *)
Example ser_named_field_struct_test_e : test_der ser_named_field_struct_E_a ser_named_field_struct_E_d ser_named_field_struct_E_p ((315)%Z, ([102; 111; 111], tt)) = Some (Ok [177; 9; 2; 2; 1; 59; 12; 3; 102; 111; 111]) /\
  test_id_len ser_named_field_struct_E_a ser_named_field_struct_E_d ser_named_field_struct_E_p ((315)%Z, ([102; 111; 111], tt)) = Some (Ok (Some 1)) /\
  test_contents_len ser_named_field_struct_E_a ser_named_field_struct_E_d ser_named_field_struct_E_p ((315)%Z, ([102; 111; 111], tt)) = Some (Ok (Some 9)).
Proof. conforms. Qed.
(** line 314 *)
Example ser_named_field_struct_test_f : test_der ser_named_field_struct_F_a ser_named_field_struct_F_d ser_named_field_struct_F_p ((315)%Z, ([102; 111; 111], tt)) = Some (Ok [16; 9; 2; 2; 1; 59; 12; 3; 102; 111; 111]) /\
  test_id_len ser_named_field_struct_F_a ser_named_field_struct_F_d ser_named_field_struct_F_p ((315)%Z, ([102; 111; 111], tt)) = Some (Ok (Some 1)) /\
  test_contents_len ser_named_field_struct_F_a ser_named_field_struct_F_d ser_named_field_struct_F_p ((315)%Z, ([102; 111; 111], tt)) = Some (Ok (Some 9)).
Proof. conforms. Qed.
(** line 351 *)
Example ser_named_field_struct_test_g : test_der ser_named_field_struct_G_a ser_named_field_struct_G_d ser_named_field_struct_G_p ((315)%Z, ([102; 111; 111], tt)) = Some (Ok [17; 9; 2; 2; 1; 59; 12; 3; 102; 111; 111]) /\
  test_id_len ser_named_field_struct_G_a ser_named_field_struct_G_d ser_named_field_struct_G_p ((315)%Z, ([102; 111; 111], tt)) = Some (Ok (Some 1)) /\
  test_contents_len ser_named_field_struct_G_a ser_named_field_struct_G_d ser_named_field_struct_G_p ((315)%Z, ([102; 111; 111], tt)) = Some (Ok (Some 9)).
Proof. conforms. Qed.
(** line 385 *)
Example ser_named_field_struct_test_h : test_der ser_named_field_struct_H_a ser_named_field_struct_H_d ser_named_field_struct_H_p ((315)%Z, ([102; 111; 111], tt)) = Some (Ok [144; 9; 2; 2; 1; 59; 12; 3; 102; 111; 111]) /\
  test_id_len ser_named_field_struct_H_a ser_named_field_struct_H_d ser_named_field_struct_H_p ((315)%Z, ([102; 111; 111], tt)) = Some (Ok (Some 1)) /\
  test_contents_len ser_named_field_struct_H_a ser_named_field_struct_H_d ser_named_field_struct_H_p ((315)%Z, ([102; 111; 111], tt)) = Some (Ok (Some 9)).
Proof. conforms. Qed.
(** line 422 *)
Example ser_named_field_struct_test_i : test_der ser_named_field_struct_I_a ser_named_field_struct_I_d ser_named_field_struct_I_p ((315)%Z, ([102; 111; 111], tt)) = Some (Ok [145; 9; 2; 2; 1; 59; 12; 3; 102; 111; 111]) /\
  test_id_len ser_named_field_struct_I_a ser_named_field_struct_I_d ser_named_field_struct_I_p ((315)%Z, ([102; 111; 111], tt)) = Some (Ok (Some 1)) /\
  test_contents_len ser_named_field_struct_I_a ser_named_field_struct_I_d ser_named_field_struct_I_p ((315)%Z, ([102; 111; 111], tt)) = Some (Ok (Some 9)).
Proof. conforms. Qed.
(** line 456 *)
Example ser_named_field_struct_test_j : test_der ser_named_field_struct_J_a ser_named_field_struct_J_d ser_named_field_struct_J_p ((315)%Z, ([102; 111; 111], tt)) = Some (Ok [32; 9; 2; 2; 1; 59; 12; 3; 102; 111; 111]) /\
  test_id_len ser_named_field_struct_J_a ser_named_field_struct_J_d ser_named_field_struct_J_p ((315)%Z, ([102; 111; 111], tt)) = Some (Ok (Some 1)) /\
  test_contents_len ser_named_field_struct_J_a ser_named_field_struct_J_d ser_named_field_struct_J_p ((315)%Z, ([102; 111; 111], tt)) = Some (Ok (Some 9)).
Proof. conforms. Qed.
(** line 490 *)
Example ser_named_field_struct_test_k : test_der ser_named_field_struct_K_a ser_named_field_struct_K_d ser_named_field_struct_K_p ((315)%Z, ([102; 111; 111], tt)) = Some (Ok [33; 9; 2; 2; 1; 59; 12; 3; 102; 111; 111]) /\
  test_id_len ser_named_field_struct_K_a ser_named_field_struct_K_d ser_named_field_struct_K_p ((315)%Z, ([102; 111; 111], tt)) = Some (Ok (Some 1)) /\
  test_contents_len ser_named_field_struct_K_a ser_named_field_struct_K_d ser_named_field_struct_K_p ((315)%Z, ([102; 111; 111], tt)) = Some (Ok (Some 9)).
Proof. conforms. Qed.
(** line 524 *)
Example ser_named_field_struct_test_l : test_der ser_named_field_struct_L_a ser_named_field_struct_L_d ser_named_field_struct_L_p ((315)%Z, ([102; 111; 111], tt)) = Some (Ok [190; 9; 2; 2; 1; 59; 12; 3; 102; 111; 111]) /\
  test_id_len ser_named_field_struct_L_a ser_named_field_struct_L_d ser_named_field_struct_L_p ((315)%Z, ([102; 111; 111], tt)) = Some (Ok (Some 1)) /\
  test_contents_len ser_named_field_struct_L_a ser_named_field_struct_L_d ser_named_field_struct_L_p ((315)%Z, ([102; 111; 111], tt)) = Some (Ok (Some 9)).
Proof. conforms. Qed.
(** line 558 *)
Example ser_named_field_struct_test_m : test_der ser_named_field_struct_M_a ser_named_field_struct_M_d ser_named_field_struct_M_p ((315)%Z, ([102; 111; 111], tt)) = Some (Ok [191; 31; 9; 2; 2; 1; 59; 12; 3; 102; 111; 111]) /\
  test_id_len ser_named_field_struct_M_a ser_named_field_struct_M_d ser_named_field_struct_M_p ((315)%Z, ([102; 111; 111], tt)) = Some (Ok (Some 2)) /\
  test_contents_len ser_named_field_struct_M_a ser_named_field_struct_M_d ser_named_field_struct_M_p ((315)%Z, ([102; 111; 111], tt)) = Some (Ok (Some 9)).
Proof. conforms. Qed.
(** line 592 *)
Example ser_named_field_struct_test_n : test_der ser_named_field_struct_N_a ser_named_field_struct_N_d ser_named_field_struct_N_p ((315)%Z, ([102; 111; 111], tt)) = Some (Ok [31; 127; 9; 2; 2; 1; 59; 12; 3; 102; 111; 111]) /\
  test_id_len ser_named_field_struct_N_a ser_named_field_struct_N_d ser_named_field_struct_N_p ((315)%Z, ([102; 111; 111], tt)) = Some (Ok (Some 2)) /\
  test_contents_len ser_named_field_struct_N_a ser_named_field_struct_N_d ser_named_field_struct_N_p ((315)%Z, ([102; 111; 111], tt)) = Some (Ok (Some 9)).
Proof. conforms. Qed.
(** line 626 *)
Example ser_named_field_struct_test_o : test_der ser_named_field_struct_O_a ser_named_field_struct_O_d ser_named_field_struct_O_p ((315)%Z, ([102; 111; 111], tt)) = Some (Ok [31; 129; 0; 9; 2; 2; 1; 59; 12; 3; 102; 111; 111]) /\
  test_id_len ser_named_field_struct_O_a ser_named_field_struct_O_d ser_named_field_struct_O_p ((315)%Z, ([102; 111; 111], tt)) = Some (Ok (Some 3)) /\
  test_contents_len ser_named_field_struct_O_a ser_named_field_struct_O_d ser_named_field_struct_O_p ((315)%Z, ([102; 111; 111], tt)) = Some (Ok (Some 9)).
Proof. conforms. Qed.
(** line 660 *)
Example ser_named_field_struct_test_p : test_der ser_named_field_struct_P_a ser_named_field_struct_P_d ser_named_field_struct_P_p ((315)%Z, ([102; 111; 111], tt)) = Some (Ok [159; 255; 127; 9; 2; 2; 1; 59; 12; 3; 102; 111; 111]) /\
  test_id_len ser_named_field_struct_P_a ser_named_field_struct_P_d ser_named_field_struct_P_p ((315)%Z, ([102; 111; 111], tt)) = Some (Ok (Some 3)) /\
  test_contents_len ser_named_field_struct_P_a ser_named_field_struct_P_d ser_named_field_struct_P_p ((315)%Z, ([102; 111; 111], tt)) = Some (Ok (Some 9)).
Proof. conforms. Qed.
(** line 694 *)
Example ser_named_field_struct_test_q : test_der ser_named_field_struct_Q_a ser_named_field_struct_Q_d ser_named_field_struct_Q_p ((315)%Z, ([102; 111; 111], tt)) = Some (Ok [159; 129; 128; 0; 9; 2; 2; 1; 59; 12; 3; 102; 111; 111]) /\
  test_id_len ser_named_field_struct_Q_a ser_named_field_struct_Q_d ser_named_field_struct_Q_p ((315)%Z, ([102; 111; 111], tt)) = Some (Ok (Some 4)) /\
  test_contents_len ser_named_field_struct_Q_a ser_named_field_struct_Q_d ser_named_field_struct_Q_p ((315)%Z, ([102; 111; 111], tt)) = Some (Ok (Some 9)).
Proof. conforms. Qed.

(** tests/ser/unit_enum.rs *)
Definition ser_unit_enum_X_T : list (list Type) := [[]; []; []; []; []; []; []; []; []; []; []; []; []; []; []; []; []].
Definition ser_unit_enum_X_d : data := DEnum ser_unit_enum_X_T ({| vd_attrs := []; vd_fields := tt : hlist field_decl [] |}, ({| vd_attrs := [Some []]; vd_fields := tt : hlist field_decl [] |}, ({| vd_attrs := [Some [TIdent "id"; TPunct "="; TIdent "Set"]]; vd_fields := tt : hlist field_decl [] |}, ({| vd_attrs := [Some [TIdent "tag_class"; TPunct "="; TIdent "UNIVERSAL"]]; vd_fields := tt : hlist field_decl [] |}, ({| vd_attrs := [Some [TIdent "tag_class"; TPunct "="; TIdent "UNIVERSAL"; TPunct ","; TIdent "id"; TPunct "="; TIdent "Set"]]; vd_fields := tt : hlist field_decl [] |}, ({| vd_attrs := [Some [TIdent "tag_pc"; TPunct "="; TIdent "PRIMITIVE"]]; vd_fields := tt : hlist field_decl [] |}, ({| vd_attrs := [Some [TIdent "tag_pc"; TPunct "="; TIdent "PRIMITIVE"; TPunct ","; TIdent "id"; TPunct "="; TIdent "Set"]]; vd_fields := tt : hlist field_decl [] |}, ({| vd_attrs := [Some [TIdent "tag_pc"; TPunct "="; TIdent "PRIMITIVE"; TPunct ","; TIdent "tag_class"; TPunct "="; TIdent "UNIVERSAL"]]; vd_fields := tt : hlist field_decl [] |}, ({| vd_attrs := [Some [TIdent "tag_pc"; TPunct "="; TIdent "PRIMITIVE"; TPunct ","; TIdent "tag_class"; TPunct "="; TIdent "UNIVERSAL"; TPunct ","; TIdent "id"; TPunct "="; TIdent "Set"]]; vd_fields := tt : hlist field_decl [] |}, ({| vd_attrs := [Some [TIdent "tag_num"; TPunct "="; TLiteral "0"]]; vd_fields := tt : hlist field_decl [] |}, ({| vd_attrs := [Some [TIdent "tag_num"; TPunct "="; TLiteral "1"; TPunct ","; TIdent "id"; TPunct "="; TIdent "Set"]]; vd_fields := tt : hlist field_decl [] |}, ({| vd_attrs := [Some [TIdent "tag_num"; TPunct "="; TLiteral "0x1e"; TPunct ","; TIdent "tag_class"; TPunct "="; TIdent "UNIVERSAL"]]; vd_fields := tt : hlist field_decl [] |}, ({| vd_attrs := [Some [TIdent "tag_num"; TPunct "="; TLiteral "0x1f"; TPunct ","; TIdent "tag_class"; TPunct "="; TIdent "UNIVERSAL"; TPunct ","; TIdent "id"; TPunct "="; TIdent "Set"]]; vd_fields := tt : hlist field_decl [] |}, ({| vd_attrs := [Some [TIdent "tag_num"; TPunct "="; TLiteral "0x7f"; TPunct ","; TIdent "tag_pc"; TPunct "="; TIdent "PRIMITIVE"]]; vd_fields := tt : hlist field_decl [] |}, ({| vd_attrs := [Some [TIdent "tag_num"; TPunct "="; TLiteral "0x80"; TPunct ","; TIdent "tag_pc"; TPunct "="; TIdent "PRIMITIVE"; TPunct ","; TIdent "id"; TPunct "="; TIdent "Set"]]; vd_fields := tt : hlist field_decl [] |}, ({| vd_attrs := [Some [TIdent "tag_num"; TPunct "="; TLiteral "0x3fff"; TPunct ","; TIdent "tag_pc"; TPunct "="; TIdent "PRIMITIVE"; TPunct ","; TIdent "tag_class"; TPunct "="; TIdent "UNIVERSAL"]]; vd_fields := tt : hlist field_decl [] |}, ({| vd_attrs := [Some [TIdent "tag_num"; TPunct "="; TLiteral "0x4000"; TPunct ","; TIdent "tag_pc"; TPunct "="; TIdent "PRIMITIVE"; TPunct ","; TIdent "tag_class"; TPunct "="; TIdent "UNIVERSAL"; TPunct ","; TIdent "id"; TPunct "="; TIdent "Set"]]; vd_fields := tt : hlist field_decl [] |}, tt))))))))))))))))).
Definition ser_unit_enum_X_a : list syn_attribute := [].
Definition ser_unit_enum_X_p : paths (value ser_unit_enum_X_d) := no_paths _.
(** line 78 *)
Example ser_unit_enum_test_xa : test_der ser_unit_enum_X_a ser_unit_enum_X_d ser_unit_enum_X_p (inl tt) = Some (Ok [48; 0]) /\
  test_id_len ser_unit_enum_X_a ser_unit_enum_X_d ser_unit_enum_X_p (inl tt) = Some (Ok (Some 1)) /\
  test_contents_len ser_unit_enum_X_a ser_unit_enum_X_d ser_unit_enum_X_p (inl tt) = Some (Ok (Some 0)).
Proof. conforms. Qed.
(** line 94 *)
Example ser_unit_enum_test_xb : test_der ser_unit_enum_X_a ser_unit_enum_X_d ser_unit_enum_X_p (inr (inl tt)) = Some (Ok [48; 0]) /\
  test_id_len ser_unit_enum_X_a ser_unit_enum_X_d ser_unit_enum_X_p (inr (inl tt)) = Some (Ok (Some 1)) /\
  test_contents_len ser_unit_enum_X_a ser_unit_enum_X_d ser_unit_enum_X_p (inr (inl tt)) = Some (Ok (Some 0)).
Proof. conforms. Qed.
(** line 115 *)
Example ser_unit_enum_test_xc : test_der ser_unit_enum_X_a ser_unit_enum_X_d ser_unit_enum_X_p (inr (inr (inl tt))) = Some (Ok [49; 0]) /\
  test_id_len ser_unit_enum_X_a ser_unit_enum_X_d ser_unit_enum_X_p (inr (inr (inl tt))) = Some (Ok (Some 1)) /\
  test_contents_len ser_unit_enum_X_a ser_unit_enum_X_d ser_unit_enum_X_p (inr (inr (inl tt))) = Some (Ok (Some 0)).
Proof. conforms. Qed.
(** line 133 *)
Example ser_unit_enum_test_xd : test_der ser_unit_enum_X_a ser_unit_enum_X_d ser_unit_enum_X_p (inr (inr (inr (inl tt)))) = Some (Ok [48; 0]) /\
  test_id_len ser_unit_enum_X_a ser_unit_enum_X_d ser_unit_enum_X_p (inr (inr (inr (inl tt)))) = Some (Ok (Some 1)) /\
  test_contents_len ser_unit_enum_X_a ser_unit_enum_X_d ser_unit_enum_X_p (inr (inr (inr (inl tt)))) = Some (Ok (Some 0)).
Proof. conforms. Qed.
(** line 154 *)
Example ser_unit_enum_test_xe : test_der ser_unit_enum_X_a ser_unit_enum_X_d ser_unit_enum_X_p (inr (inr (inr (inr (inl tt))))) = Some (Ok [49; 0]) /\
  test_id_len ser_unit_enum_X_a ser_unit_enum_X_d ser_unit_enum_X_p (inr (inr (inr (inr (inl tt))))) = Some (Ok (Some 1)) /\
  test_contents_len ser_unit_enum_X_a ser_unit_enum_X_d ser_unit_enum_X_p (inr (inr (inr (inr (inl tt))))) = Some (Ok (Some 0)).
Proof. conforms. Qed.
(** line 172 *)
Example ser_unit_enum_test_xf : test_der ser_unit_enum_X_a ser_unit_enum_X_d ser_unit_enum_X_p (inr (inr (inr (inr (inr (inl tt)))))) = Some (Ok [16; 0]) /\
  test_id_len ser_unit_enum_X_a ser_unit_enum_X_d ser_unit_enum_X_p (inr (inr (inr (inr (inr (inl tt)))))) = Some (Ok (Some 1)) /\
  test_contents_len ser_unit_enum_X_a ser_unit_enum_X_d ser_unit_enum_X_p (inr (inr (inr (inr (inr (inl tt)))))) = Some (Ok (Some 0)).
Proof. conforms. Qed.
(** line 193 *)
Example ser_unit_enum_test_xg : test_der ser_unit_enum_X_a ser_unit_enum_X_d ser_unit_enum_X_p (inr (inr (inr (inr (inr (inr (inl tt))))))) = Some (Ok [17; 0]) /\
  test_id_len ser_unit_enum_X_a ser_unit_enum_X_d ser_unit_enum_X_p (inr (inr (inr (inr (inr (inr (inl tt))))))) = Some (Ok (Some 1)) /\
  test_contents_len ser_unit_enum_X_a ser_unit_enum_X_d ser_unit_enum_X_p (inr (inr (inr (inr (inr (inr (inl tt))))))) = Some (Ok (Some 0)).
Proof. conforms. Qed.
(** line 211 *)
Example ser_unit_enum_test_xh : test_der ser_unit_enum_X_a ser_unit_enum_X_d ser_unit_enum_X_p (inr (inr (inr (inr (inr (inr (inr (inl tt)))))))) = Some (Ok [16; 0]) /\
  test_id_len ser_unit_enum_X_a ser_unit_enum_X_d ser_unit_enum_X_p (inr (inr (inr (inr (inr (inr (inr (inl tt)))))))) = Some (Ok (Some 1)) /\
  test_contents_len ser_unit_enum_X_a ser_unit_enum_X_d ser_unit_enum_X_p (inr (inr (inr (inr (inr (inr (inr (inl tt)))))))) = Some (Ok (Some 0)).
Proof. conforms. Qed.
(** line 232 *)
Example ser_unit_enum_test_xi : test_der ser_unit_enum_X_a ser_unit_enum_X_d ser_unit_enum_X_p (inr (inr (inr (inr (inr (inr (inr (inr (inl tt))))))))) = Some (Ok [17; 0]) /\
  test_id_len ser_unit_enum_X_a ser_unit_enum_X_d ser_unit_enum_X_p (inr (inr (inr (inr (inr (inr (inr (inr (inl tt))))))))) = Some (Ok (Some 1)) /\
  test_contents_len ser_unit_enum_X_a ser_unit_enum_X_d ser_unit_enum_X_p (inr (inr (inr (inr (inr (inr (inr (inr (inl tt))))))))) = Some (Ok (Some 0)).
Proof. conforms. Qed.
(** line 250 *)
Example ser_unit_enum_test_xj : test_der ser_unit_enum_X_a ser_unit_enum_X_d ser_unit_enum_X_p (inr (inr (inr (inr (inr (inr (inr (inr (inr (inl tt)))))))))) = Some (Ok [32; 0]) /\
  test_id_len ser_unit_enum_X_a ser_unit_enum_X_d ser_unit_enum_X_p (inr (inr (inr (inr (inr (inr (inr (inr (inr (inl tt)))))))))) = Some (Ok (Some 1)) /\
  test_contents_len ser_unit_enum_X_a ser_unit_enum_X_d ser_unit_enum_X_p (inr (inr (inr (inr (inr (inr (inr (inr (inr (inl tt)))))))))) = Some (Ok (Some 0)).
Proof. conforms. Qed.
(** line 268 *)
Example ser_unit_enum_test_xk : test_der ser_unit_enum_X_a ser_unit_enum_X_d ser_unit_enum_X_p (inr (inr (inr (inr (inr (inr (inr (inr (inr (inr (inl tt))))))))))) = Some (Ok [33; 0]) /\
  test_id_len ser_unit_enum_X_a ser_unit_enum_X_d ser_unit_enum_X_p (inr (inr (inr (inr (inr (inr (inr (inr (inr (inr (inl tt))))))))))) = Some (Ok (Some 1)) /\
  test_contents_len ser_unit_enum_X_a ser_unit_enum_X_d ser_unit_enum_X_p (inr (inr (inr (inr (inr (inr (inr (inr (inr (inr (inl tt))))))))))) = Some (Ok (Some 0)).
Proof. conforms. Qed.
(** line 286 *)
Example ser_unit_enum_test_xl : test_der ser_unit_enum_X_a ser_unit_enum_X_d ser_unit_enum_X_p (inr (inr (inr (inr (inr (inr (inr (inr (inr (inr (inr (inl tt)))))))))))) = Some (Ok [62; 0]) /\
  test_id_len ser_unit_enum_X_a ser_unit_enum_X_d ser_unit_enum_X_p (inr (inr (inr (inr (inr (inr (inr (inr (inr (inr (inr (inl tt)))))))))))) = Some (Ok (Some 1)) /\
  test_contents_len ser_unit_enum_X_a ser_unit_enum_X_d ser_unit_enum_X_p (inr (inr (inr (inr (inr (inr (inr (inr (inr (inr (inr (inl tt)))))))))))) = Some (Ok (Some 0)).
Proof. conforms. Qed.
(** line 304 *)
Example ser_unit_enum_test_xm : test_der ser_unit_enum_X_a ser_unit_enum_X_d ser_unit_enum_X_p (inr (inr (inr (inr (inr (inr (inr (inr (inr (inr (inr (inr (inl tt))))))))))))) = Some (Ok [63; 31; 0]) /\
  test_id_len ser_unit_enum_X_a ser_unit_enum_X_d ser_unit_enum_X_p (inr (inr (inr (inr (inr (inr (inr (inr (inr (inr (inr (inr (inl tt))))))))))))) = Some (Ok (Some 2)) /\
  test_contents_len ser_unit_enum_X_a ser_unit_enum_X_d ser_unit_enum_X_p (inr (inr (inr (inr (inr (inr (inr (inr (inr (inr (inr (inr (inl tt))))))))))))) = Some (Ok (Some 0)).
Proof. conforms. Qed.
(** line 322 *)
Example ser_unit_enum_test_xn : test_der ser_unit_enum_X_a ser_unit_enum_X_d ser_unit_enum_X_p (inr (inr (inr (inr (inr (inr (inr (inr (inr (inr (inr (inr (inr (inl tt)))))))))))))) = Some (Ok [31; 127; 0]) /\
  test_id_len ser_unit_enum_X_a ser_unit_enum_X_d ser_unit_enum_X_p (inr (inr (inr (inr (inr (inr (inr (inr (inr (inr (inr (inr (inr (inl tt)))))))))))))) = Some (Ok (Some 2)) /\
  test_contents_len ser_unit_enum_X_a ser_unit_enum_X_d ser_unit_enum_X_p (inr (inr (inr (inr (inr (inr (inr (inr (inr (inr (inr (inr (inr (inl tt)))))))))))))) = Some (Ok (Some 0)).
Proof. conforms. Qed.
(** line 340 *)
Example ser_unit_enum_test_xo : test_der ser_unit_enum_X_a ser_unit_enum_X_d ser_unit_enum_X_p (inr (inr (inr (inr (inr (inr (inr (inr (inr (inr (inr (inr (inr (inr (inl tt))))))))))))))) = Some (Ok [31; 129; 0; 0]) /\
  test_id_len ser_unit_enum_X_a ser_unit_enum_X_d ser_unit_enum_X_p (inr (inr (inr (inr (inr (inr (inr (inr (inr (inr (inr (inr (inr (inr (inl tt))))))))))))))) = Some (Ok (Some 3)) /\
  test_contents_len ser_unit_enum_X_a ser_unit_enum_X_d ser_unit_enum_X_p (inr (inr (inr (inr (inr (inr (inr (inr (inr (inr (inr (inr (inr (inr (inl tt))))))))))))))) = Some (Ok (Some 0)).
Proof. conforms. Qed.
(** line 358 *)
Example ser_unit_enum_test_xp : test_der ser_unit_enum_X_a ser_unit_enum_X_d ser_unit_enum_X_p (inr (inr (inr (inr (inr (inr (inr (inr (inr (inr (inr (inr (inr (inr (inr (inl tt)))))))))))))))) = Some (Ok [31; 255; 127; 0]) /\
  test_id_len ser_unit_enum_X_a ser_unit_enum_X_d ser_unit_enum_X_p (inr (inr (inr (inr (inr (inr (inr (inr (inr (inr (inr (inr (inr (inr (inr (inl tt)))))))))))))))) = Some (Ok (Some 3)) /\
  test_contents_len ser_unit_enum_X_a ser_unit_enum_X_d ser_unit_enum_X_p (inr (inr (inr (inr (inr (inr (inr (inr (inr (inr (inr (inr (inr (inr (inr (inl tt)))))))))))))))) = Some (Ok (Some 0)).
Proof. conforms. Qed.
(** line 376 *)
Example ser_unit_enum_test_xq : test_der ser_unit_enum_X_a ser_unit_enum_X_d ser_unit_enum_X_p (inr (inr (inr (inr (inr (inr (inr (inr (inr (inr (inr (inr (inr (inr (inr (inr (inl tt))))))))))))))))) = Some (Ok [31; 129; 128; 0; 0]) /\
  test_id_len ser_unit_enum_X_a ser_unit_enum_X_d ser_unit_enum_X_p (inr (inr (inr (inr (inr (inr (inr (inr (inr (inr (inr (inr (inr (inr (inr (inr (inl tt))))))))))))))))) = Some (Ok (Some 4)) /\
  test_contents_len ser_unit_enum_X_a ser_unit_enum_X_d ser_unit_enum_X_p (inr (inr (inr (inr (inr (inr (inr (inr (inr (inr (inr (inr (inr (inr (inr (inr (inl tt))))))))))))))))) = Some (Ok (Some 0)).
Proof. conforms. Qed.

(** tests/ser/tuple_enum.rs *)
Definition ser_tuple_enum_X_T : list (list Type) := [[]; [Z : Type; list N : Type]; [Z : Type; list N : Type]; [Z : Type; list N : Type]; [Z : Type; list N : Type]; [Z : Type; list N : Type]; [Z : Type; list N : Type]; [Z : Type; list N : Type]; [Z : Type; list N : Type]; [Z : Type; list N : Type]; [Z : Type; list N : Type]; [Z : Type; list N : Type]; [Z : Type; list N : Type]; [Z : Type; list N : Type]; [Z : Type; list N : Type]; [Z : Type; list N : Type]; [Z : Type; list N : Type]].
Definition ser_tuple_enum_X_d : data := DEnum ser_tuple_enum_X_T ({| vd_attrs := []; vd_fields := tt : hlist field_decl [] |}, ({| vd_attrs := [Some []]; vd_fields := (fld [] (int_n I32) 1, (fld [] (string_n) 2, tt)) : hlist field_decl [Z : Type; list N : Type] |}, ({| vd_attrs := [Some [TIdent "id"; TPunct "="; TIdent "Null"]]; vd_fields := (fld [] (int_n I32) 1, (fld [] (string_n) 2, tt)) : hlist field_decl [Z : Type; list N : Type] |}, ({| vd_attrs := [Some [TIdent "tag_class"; TPunct "="; TIdent "PRIVATE"]]; vd_fields := (fld [] (int_n I32) 1, (fld [] (string_n) 2, tt)) : hlist field_decl [Z : Type; list N : Type] |}, ({| vd_attrs := [Some [TIdent "id"; TPunct "="; TIdent "Null"; TPunct ","; TIdent "tag_class"; TPunct "="; TIdent "PRIVATE"]]; vd_fields := (fld [] (int_n I32) 1, (fld [] (string_n) 2, tt)) : hlist field_decl [Z : Type; list N : Type] |}, ({| vd_attrs := [Some [TIdent "tag_pc"; TPunct "="; TIdent "CONSTRUCTED"]]; vd_fields := (fld [] (int_n I32) 1, (fld [] (string_n) 2, tt)) : hlist field_decl [Z : Type; list N : Type] |}, ({| vd_attrs := [Some [TIdent "id"; TPunct "="; TIdent "Null"; TPunct ","; TIdent "tag_pc"; TPunct "="; TIdent "CONSTRUCTED"]]; vd_fields := (fld [] (int_n I32) 1, (fld [] (string_n) 2, tt)) : hlist field_decl [Z : Type; list N : Type] |}, ({| vd_attrs := [Some [TIdent "tag_class"; TPunct "="; TIdent "PRIVATE"; TPunct ","; TIdent "tag_pc"; TPunct "="; TIdent "CONSTRUCTED"]]; vd_fields := (fld [] (int_n I32) 1, (fld [] (string_n) 2, tt)) : hlist field_decl [Z : Type; list N : Type] |}, ({| vd_attrs := [Some [TIdent "id"; TPunct "="; TIdent "Null"; TPunct ","; TIdent "tag_class"; TPunct "="; TIdent "PRIVATE"; TPunct ","; TIdent "tag_pc"; TPunct "="; TIdent "CONSTRUCTED"]]; vd_fields := (fld [] (int_n I32) 1, (fld [] (string_n) 2, tt)) : hlist field_decl [Z : Type; list N : Type] |}, ({| vd_attrs := [Some [TIdent "tag_num"; TPunct "="; TLiteral "0x00"]]; vd_fields := (fld [] (int_n I32) 1, (fld [] (string_n) 2, tt)) : hlist field_decl [Z : Type; list N : Type] |}, ({| vd_attrs := [Some [TIdent "id"; TPunct "="; TIdent "Null"; TPunct ","; TIdent "tag_num"; TPunct "="; TLiteral "0x01"]]; vd_fields := (fld [] (int_n I32) 1, (fld [] (string_n) 2, tt)) : hlist field_decl [Z : Type; list N : Type] |}, ({| vd_attrs := [Some [TIdent "tag_class"; TPunct "="; TIdent "PRIVATE"; TPunct ","; TIdent "tag_num"; TPunct "="; TLiteral "0x1e"]]; vd_fields := (fld [] (int_n I32) 1, (fld [] (string_n) 2, tt)) : hlist field_decl [Z : Type; list N : Type] |}, ({| vd_attrs := [Some [TIdent "id"; TPunct "="; TIdent "Null"; TPunct ","; TIdent "tag_class"; TPunct "="; TIdent "PRIVATE"; TPunct ","; TIdent "tag_num"; TPunct "="; TLiteral "0x1f"]]; vd_fields := (fld [] (int_n I32) 1, (fld [] (string_n) 2, tt)) : hlist field_decl [Z : Type; list N : Type] |}, ({| vd_attrs := [Some [TIdent "tag_pc"; TPunct "="; TIdent "CONSTRUCTED"; TPunct ","; TIdent "tag_num"; TPunct "="; TLiteral "0x7f"]]; vd_fields := (fld [] (int_n I32) 1, (fld [] (string_n) 2, tt)) : hlist field_decl [Z : Type; list N : Type] |}, ({| vd_attrs := [Some [TIdent "id"; TPunct "="; TIdent "Null"; TPunct ","; TIdent "tag_pc"; TPunct "="; TIdent "CONSTRUCTED"; TPunct ","; TIdent "tag_num"; TPunct "="; TLiteral "0x80"]]; vd_fields := (fld [] (int_n I32) 1, (fld [] (string_n) 2, tt)) : hlist field_decl [Z : Type; list N : Type] |}, ({| vd_attrs := [Some [TIdent "tag_class"; TPunct "="; TIdent "PRIVATE"; TPunct ","; TIdent "tag_pc"; TPunct "="; TIdent "CONSTRUCTED"; TPunct ","; TIdent "tag_num"; TPunct "="; TLiteral "0x3fff"]]; vd_fields := (fld [] (int_n I32) 1, (fld [] (string_n) 2, tt)) : hlist field_decl [Z : Type; list N : Type] |}, ({| vd_attrs := [Some [TIdent "id"; TPunct "="; TIdent "Null"; TPunct ","; TIdent "tag_class"; TPunct "="; TIdent "PRIVATE"; TPunct ","; TIdent "tag_pc"; TPunct "="; TIdent "CONSTRUCTED"; TPunct ","; TIdent "tag_num"; TPunct "="; TLiteral "0x4000"]]; vd_fields := (fld [] (int_n I32) 1, (fld [] (string_n) 2, tt)) : hlist field_decl [Z : Type; list N : Type] |}, tt))))))))))))))))).
Definition ser_tuple_enum_X_a : list syn_attribute := [].
Definition ser_tuple_enum_X_p : paths (value ser_tuple_enum_X_d) := no_paths _.
(** line 78 *)
Example ser_tuple_enum_test_xa : test_der ser_tuple_enum_X_a ser_tuple_enum_X_d ser_tuple_enum_X_p (inl tt) = Some (Ok [48; 0]) /\
  test_id_len ser_tuple_enum_X_a ser_tuple_enum_X_d ser_tuple_enum_X_p (inl tt) = Some (Ok (Some 1)) /\
  test_contents_len ser_tuple_enum_X_a ser_tuple_enum_X_d ser_tuple_enum_X_p (inl tt) = Some (Ok (Some 0)).
Proof. conforms. Qed.
(** line 94 *)
Example ser_tuple_enum_test_xb : test_der ser_tuple_enum_X_a ser_tuple_enum_X_d ser_tuple_enum_X_p (inr (inl ((315)%Z, ([102; 111; 111], tt)))) = Some (Ok [48; 9; 2; 2; 1; 59; 12; 3; 102; 111; 111]) /\
  test_id_len ser_tuple_enum_X_a ser_tuple_enum_X_d ser_tuple_enum_X_p (inr (inl ((315)%Z, ([102; 111; 111], tt)))) = Some (Ok (Some 1)) /\
  test_contents_len ser_tuple_enum_X_a ser_tuple_enum_X_d ser_tuple_enum_X_p (inr (inl ((315)%Z, ([102; 111; 111], tt)))) = Some (Ok (Some 9)).
Proof. conforms. Qed.
(** line 128 *)
Example ser_tuple_enum_test_xc : test_der ser_tuple_enum_X_a ser_tuple_enum_X_d ser_tuple_enum_X_p (inr (inr (inl ((315)%Z, ([102; 111; 111], tt))))) = Some (Ok [5; 9; 2; 2; 1; 59; 12; 3; 102; 111; 111]) /\
  test_id_len ser_tuple_enum_X_a ser_tuple_enum_X_d ser_tuple_enum_X_p (inr (inr (inl ((315)%Z, ([102; 111; 111], tt))))) = Some (Ok (Some 1)) /\
  test_contents_len ser_tuple_enum_X_a ser_tuple_enum_X_d ser_tuple_enum_X_p (inr (inr (inl ((315)%Z, ([102; 111; 111], tt))))) = Some (Ok (Some 9)).
Proof. conforms. Qed.
(** line 159 *)
Example ser_tuple_enum_test_xd : test_der ser_tuple_enum_X_a ser_tuple_enum_X_d ser_tuple_enum_X_p (inr (inr (inr (inl ((315)%Z, ([102; 111; 111], tt)))))) = Some (Ok [240; 9; 2; 2; 1; 59; 12; 3; 102; 111; 111]) /\
  test_id_len ser_tuple_enum_X_a ser_tuple_enum_X_d ser_tuple_enum_X_p (inr (inr (inr (inl ((315)%Z, ([102; 111; 111], tt)))))) = Some (Ok (Some 1)) /\
  test_contents_len ser_tuple_enum_X_a ser_tuple_enum_X_d ser_tuple_enum_X_p (inr (inr (inr (inl ((315)%Z, ([102; 111; 111], tt)))))) = Some (Ok (Some 9)).
Proof. conforms. Qed.
(** line 193 *)
Example ser_tuple_enum_test_xe : test_der ser_tuple_enum_X_a ser_tuple_enum_X_d ser_tuple_enum_X_p (inr (inr (inr (inr (inl ((315)%Z, ([102; 111; 111], tt))))))) = Some (Ok [197; 9; 2; 2; 1; 59; 12; 3; 102; 111; 111]) /\
  test_id_len ser_tuple_enum_X_a ser_tuple_enum_X_d ser_tuple_enum_X_p (inr (inr (inr (inr (inl ((315)%Z, ([102; 111; 111], tt))))))) = Some (Ok (Some 1)) /\
  test_contents_len ser_tuple_enum_X_a ser_tuple_enum_X_d ser_tuple_enum_X_p (inr (inr (inr (inr (inl ((315)%Z, ([102; 111; 111], tt))))))) = Some (Ok (Some 9)).
Proof. conforms. Qed.
(** line 224 *)
Example ser_tuple_enum_test_xf : test_der ser_tuple_enum_X_a ser_tuple_enum_X_d ser_tuple_enum_X_p (inr (inr (inr (inr (inr (inl ((315)%Z, ([102; 111; 111], tt)))))))) = Some (Ok [48; 9; 2; 2; 1; 59; 12; 3; 102; 111; 111]) /\
  test_id_len ser_tuple_enum_X_a ser_tuple_enum_X_d ser_tuple_enum_X_p (inr (inr (inr (inr (inr (inl ((315)%Z, ([102; 111; 111], tt)))))))) = Some (Ok (Some 1)) /\
  test_contents_len ser_tuple_enum_X_a ser_tuple_enum_X_d ser_tuple_enum_X_p (inr (inr (inr (inr (inr (inl ((315)%Z, ([102; 111; 111], tt)))))))) = Some (Ok (Some 9)).
Proof. conforms. Qed.
(** line 258 *)
Example ser_tuple_enum_test_xg : test_der ser_tuple_enum_X_a ser_tuple_enum_X_d ser_tuple_enum_X_p (inr (inr (inr (inr (inr (inr (inl ((315)%Z, ([102; 111; 111], tt))))))))) = Some (Ok [37; 9; 2; 2; 1; 59; 12; 3; 102; 111; 111]) /\
  test_id_len ser_tuple_enum_X_a ser_tuple_enum_X_d ser_tuple_enum_X_p (inr (inr (inr (inr (inr (inr (inl ((315)%Z, ([102; 111; 111], tt))))))))) = Some (Ok (Some 1)) /\
  test_contents_len ser_tuple_enum_X_a ser_tuple_enum_X_d ser_tuple_enum_X_p (inr (inr (inr (inr (inr (inr (inl ((315)%Z, ([102; 111; 111], tt))))))))) = Some (Ok (Some 9)).
Proof. conforms. Qed.
(** line 289 *)
Example ser_tuple_enum_test_xh : test_der ser_tuple_enum_X_a ser_tuple_enum_X_d ser_tuple_enum_X_p (inr (inr (inr (inr (inr (inr (inr (inl ((315)%Z, ([102; 111; 111], tt)))))))))) = Some (Ok [240; 9; 2; 2; 1; 59; 12; 3; 102; 111; 111]) /\
  test_id_len ser_tuple_enum_X_a ser_tuple_enum_X_d ser_tuple_enum_X_p (inr (inr (inr (inr (inr (inr (inr (inl ((315)%Z, ([102; 111; 111], tt)))))))))) = Some (Ok (Some 1)) /\
  test_contents_len ser_tuple_enum_X_a ser_tuple_enum_X_d ser_tuple_enum_X_p (inr (inr (inr (inr (inr (inr (inr (inl ((315)%Z, ([102; 111; 111], tt)))))))))) = Some (Ok (Some 9)).
Proof. conforms. Qed.
(** line 323 *)
Example ser_tuple_enum_test_xi : test_der ser_tuple_enum_X_a ser_tuple_enum_X_d ser_tuple_enum_X_p (inr (inr (inr (inr (inr (inr (inr (inr (inl ((315)%Z, ([102; 111; 111], tt))))))))))) = Some (Ok [229; 9; 2; 2; 1; 59; 12; 3; 102; 111; 111]) /\
  test_id_len ser_tuple_enum_X_a ser_tuple_enum_X_d ser_tuple_enum_X_p (inr (inr (inr (inr (inr (inr (inr (inr (inl ((315)%Z, ([102; 111; 111], tt))))))))))) = Some (Ok (Some 1)) /\
  test_contents_len ser_tuple_enum_X_a ser_tuple_enum_X_d ser_tuple_enum_X_p (inr (inr (inr (inr (inr (inr (inr (inr (inl ((315)%Z, ([102; 111; 111], tt))))))))))) = Some (Ok (Some 9)).
Proof. conforms. Qed.
(** line 354 *)
Example ser_tuple_enum_test_xj : test_der ser_tuple_enum_X_a ser_tuple_enum_X_d ser_tuple_enum_X_p (inr (inr (inr (inr (inr (inr (inr (inr (inr (inl ((315)%Z, ([102; 111; 111], tt)))))))))))) = Some (Ok [32; 9; 2; 2; 1; 59; 12; 3; 102; 111; 111]) /\
  test_id_len ser_tuple_enum_X_a ser_tuple_enum_X_d ser_tuple_enum_X_p (inr (inr (inr (inr (inr (inr (inr (inr (inr (inl ((315)%Z, ([102; 111; 111], tt)))))))))))) = Some (Ok (Some 1)) /\
  test_contents_len ser_tuple_enum_X_a ser_tuple_enum_X_d ser_tuple_enum_X_p (inr (inr (inr (inr (inr (inr (inr (inr (inr (inl ((315)%Z, ([102; 111; 111], tt)))))))))))) = Some (Ok (Some 9)).
Proof. conforms. Qed.
(** line 385 *)
Example ser_tuple_enum_test_xk : test_der ser_tuple_enum_X_a ser_tuple_enum_X_d ser_tuple_enum_X_p (inr (inr (inr (inr (inr (inr (inr (inr (inr (inr (inl ((315)%Z, ([102; 111; 111], tt))))))))))))) = Some (Ok [1; 9; 2; 2; 1; 59; 12; 3; 102; 111; 111]) /\
  test_id_len ser_tuple_enum_X_a ser_tuple_enum_X_d ser_tuple_enum_X_p (inr (inr (inr (inr (inr (inr (inr (inr (inr (inr (inl ((315)%Z, ([102; 111; 111], tt))))))))))))) = Some (Ok (Some 1)) /\
  test_contents_len ser_tuple_enum_X_a ser_tuple_enum_X_d ser_tuple_enum_X_p (inr (inr (inr (inr (inr (inr (inr (inr (inr (inr (inl ((315)%Z, ([102; 111; 111], tt))))))))))))) = Some (Ok (Some 9)).
Proof. conforms. Qed.
(** line 416 *)
Example ser_tuple_enum_test_xl : test_der ser_tuple_enum_X_a ser_tuple_enum_X_d ser_tuple_enum_X_p (inr (inr (inr (inr (inr (inr (inr (inr (inr (inr (inr (inl ((315)%Z, ([102; 111; 111], tt)))))))))))))) = Some (Ok [254; 9; 2; 2; 1; 59; 12; 3; 102; 111; 111]) /\
  test_id_len ser_tuple_enum_X_a ser_tuple_enum_X_d ser_tuple_enum_X_p (inr (inr (inr (inr (inr (inr (inr (inr (inr (inr (inr (inl ((315)%Z, ([102; 111; 111], tt)))))))))))))) = Some (Ok (Some 1)) /\
  test_contents_len ser_tuple_enum_X_a ser_tuple_enum_X_d ser_tuple_enum_X_p (inr (inr (inr (inr (inr (inr (inr (inr (inr (inr (inr (inl ((315)%Z, ([102; 111; 111], tt)))))))))))))) = Some (Ok (Some 9)).
Proof. conforms. Qed.
(** line 447 *)
Example ser_tuple_enum_test_xm : test_der ser_tuple_enum_X_a ser_tuple_enum_X_d ser_tuple_enum_X_p (inr (inr (inr (inr (inr (inr (inr (inr (inr (inr (inr (inr (inl ((315)%Z, ([102; 111; 111], tt))))))))))))))) = Some (Ok [223; 31; 9; 2; 2; 1; 59; 12; 3; 102; 111; 111]) /\
  test_id_len ser_tuple_enum_X_a ser_tuple_enum_X_d ser_tuple_enum_X_p (inr (inr (inr (inr (inr (inr (inr (inr (inr (inr (inr (inr (inl ((315)%Z, ([102; 111; 111], tt))))))))))))))) = Some (Ok (Some 2)) /\
  test_contents_len ser_tuple_enum_X_a ser_tuple_enum_X_d ser_tuple_enum_X_p (inr (inr (inr (inr (inr (inr (inr (inr (inr (inr (inr (inr (inl ((315)%Z, ([102; 111; 111], tt))))))))))))))) = Some (Ok (Some 9)).
Proof. conforms. Qed.
(** line 478 *)
Example ser_tuple_enum_test_xn : test_der ser_tuple_enum_X_a ser_tuple_enum_X_d ser_tuple_enum_X_p (inr (inr (inr (inr (inr (inr (inr (inr (inr (inr (inr (inr (inr (inl ((315)%Z, ([102; 111; 111], tt)))))))))))))))) = Some (Ok [63; 127; 9; 2; 2; 1; 59; 12; 3; 102; 111; 111]) /\
  test_id_len ser_tuple_enum_X_a ser_tuple_enum_X_d ser_tuple_enum_X_p (inr (inr (inr (inr (inr (inr (inr (inr (inr (inr (inr (inr (inr (inl ((315)%Z, ([102; 111; 111], tt)))))))))))))))) = Some (Ok (Some 2)) /\
  test_contents_len ser_tuple_enum_X_a ser_tuple_enum_X_d ser_tuple_enum_X_p (inr (inr (inr (inr (inr (inr (inr (inr (inr (inr (inr (inr (inr (inl ((315)%Z, ([102; 111; 111], tt)))))))))))))))) = Some (Ok (Some 9)).
Proof. conforms. Qed.
(** line 509 *)
Example ser_tuple_enum_test_xo : test_der ser_tuple_enum_X_a ser_tuple_enum_X_d ser_tuple_enum_X_p (inr (inr (inr (inr (inr (inr (inr (inr (inr (inr (inr (inr (inr (inr (inl ((315)%Z, ([102; 111; 111], tt))))))))))))))))) = Some (Ok [63; 129; 0; 9; 2; 2; 1; 59; 12; 3; 102; 111; 111]) /\
  test_id_len ser_tuple_enum_X_a ser_tuple_enum_X_d ser_tuple_enum_X_p (inr (inr (inr (inr (inr (inr (inr (inr (inr (inr (inr (inr (inr (inr (inl ((315)%Z, ([102; 111; 111], tt))))))))))))))))) = Some (Ok (Some 3)) /\
  test_contents_len ser_tuple_enum_X_a ser_tuple_enum_X_d ser_tuple_enum_X_p (inr (inr (inr (inr (inr (inr (inr (inr (inr (inr (inr (inr (inr (inr (inl ((315)%Z, ([102; 111; 111], tt))))))))))))))))) = Some (Ok (Some 9)).
Proof. conforms. Qed.
(** line 540 *)
Example ser_tuple_enum_test_xp : test_der ser_tuple_enum_X_a ser_tuple_enum_X_d ser_tuple_enum_X_p (inr (inr (inr (inr (inr (inr (inr (inr (inr (inr (inr (inr (inr (inr (inr (inl ((315)%Z, ([102; 111; 111], tt)))))))))))))))))) = Some (Ok [255; 255; 127; 9; 2; 2; 1; 59; 12; 3; 102; 111; 111]) /\
  test_id_len ser_tuple_enum_X_a ser_tuple_enum_X_d ser_tuple_enum_X_p (inr (inr (inr (inr (inr (inr (inr (inr (inr (inr (inr (inr (inr (inr (inr (inl ((315)%Z, ([102; 111; 111], tt)))))))))))))))))) = Some (Ok (Some 3)) /\
  test_contents_len ser_tuple_enum_X_a ser_tuple_enum_X_d ser_tuple_enum_X_p (inr (inr (inr (inr (inr (inr (inr (inr (inr (inr (inr (inr (inr (inr (inr (inl ((315)%Z, ([102; 111; 111], tt)))))))))))))))))) = Some (Ok (Some 9)).
Proof. conforms. Qed.
(** line 571 *)
Example ser_tuple_enum_test_xq : test_der ser_tuple_enum_X_a ser_tuple_enum_X_d ser_tuple_enum_X_p (inr (inr (inr (inr (inr (inr (inr (inr (inr (inr (inr (inr (inr (inr (inr (inr (inl ((315)%Z, ([102; 111; 111], tt))))))))))))))))))) = Some (Ok [255; 129; 128; 0; 9; 2; 2; 1; 59; 12; 3; 102; 111; 111]) /\
  test_id_len ser_tuple_enum_X_a ser_tuple_enum_X_d ser_tuple_enum_X_p (inr (inr (inr (inr (inr (inr (inr (inr (inr (inr (inr (inr (inr (inr (inr (inr (inl ((315)%Z, ([102; 111; 111], tt))))))))))))))))))) = Some (Ok (Some 4)) /\
  test_contents_len ser_tuple_enum_X_a ser_tuple_enum_X_d ser_tuple_enum_X_p (inr (inr (inr (inr (inr (inr (inr (inr (inr (inr (inr (inr (inr (inr (inr (inr (inl ((315)%Z, ([102; 111; 111], tt))))))))))))))))))) = Some (Ok (Some 9)).
Proof. conforms. Qed.

(** tests/ser/named_field_enum.rs *)
Definition ser_named_field_enum_X_T : list (list Type) := [[]; [Z : Type; list N : Type]; [Z : Type; list N : Type]; [Z : Type; list N : Type]; [Z : Type; list N : Type]; [Z : Type; list N : Type]; [Z : Type; list N : Type]; [Z : Type; list N : Type]; [Z : Type; list N : Type]; [Z : Type; list N : Type]; [Z : Type; list N : Type]; [Z : Type; list N : Type]; [Z : Type; list N : Type]; [Z : Type; list N : Type]; [Z : Type; list N : Type]; [Z : Type; list N : Type]; [Z : Type; list N : Type]].
Definition ser_named_field_enum_X_d : data := DEnum ser_named_field_enum_X_T ({| vd_attrs := []; vd_fields := tt : hlist field_decl [] |}, ({| vd_attrs := [Some []]; vd_fields := (fld [] (int_n I32) 1, (fld [] (string_n) 2, tt)) : hlist field_decl [Z : Type; list N : Type] |}, ({| vd_attrs := [Some [TIdent "id"; TPunct "="; TIdent "EOC"]]; vd_fields := (fld [] (int_n I32) 1, (fld [] (string_n) 2, tt)) : hlist field_decl [Z : Type; list N : Type] |}, ({| vd_attrs := [Some [TIdent "tag_class"; TPunct "="; TIdent "APPLICATION"]]; vd_fields := (fld [] (int_n I32) 1, (fld [] (string_n) 2, tt)) : hlist field_decl [Z : Type; list N : Type] |}, ({| vd_attrs := [Some [TIdent "tag_class"; TPunct "="; TIdent "APPLICATION"; TPunct ","; TIdent "id"; TPunct "="; TIdent "EOC"]]; vd_fields := (fld [] (int_n I32) 1, (fld [] (string_n) 2, tt)) : hlist field_decl [Z : Type; list N : Type] |}, ({| vd_attrs := [Some [TIdent "tag_pc"; TPunct "="; TIdent "PRIMITIVE"]]; vd_fields := (fld [] (int_n I32) 1, (fld [] (string_n) 2, tt)) : hlist field_decl [Z : Type; list N : Type] |}, ({| vd_attrs := [Some [TIdent "tag_pc"; TPunct "="; TIdent "PRIMITIVE"; TPunct ","; TIdent "id"; TPunct "="; TIdent "EOC"]]; vd_fields := (fld [] (int_n I32) 1, (fld [] (string_n) 2, tt)) : hlist field_decl [Z : Type; list N : Type] |}, ({| vd_attrs := [Some [TIdent "tag_pc"; TPunct "="; TIdent "PRIMITIVE"; TPunct ","; TIdent "tag_class"; TPunct "="; TIdent "APPLICATION"]]; vd_fields := (fld [] (int_n I32) 1, (fld [] (string_n) 2, tt)) : hlist field_decl [Z : Type; list N : Type] |}, ({| vd_attrs := [Some [TIdent "tag_pc"; TPunct "="; TIdent "PRIMITIVE"; TPunct ","; TIdent "tag_class"; TPunct "="; TIdent "APPLICATION"; TPunct ","; TIdent "id"; TPunct "="; TIdent "EOC"]]; vd_fields := (fld [] (int_n I32) 1, (fld [] (string_n) 2, tt)) : hlist field_decl [Z : Type; list N : Type] |}, ({| vd_attrs := [Some [TIdent "tag_num"; TPunct "="; TLiteral "0"]]; vd_fields := (fld [] (int_n I32) 1, (fld [] (string_n) 2, tt)) : hlist field_decl [Z : Type; list N : Type] |}, ({| vd_attrs := [Some [TIdent "tag_num"; TPunct "="; TLiteral "1"; TPunct ","; TIdent "id"; TPunct "="; TIdent "EOC"]]; vd_fields := (fld [] (int_n I32) 1, (fld [] (string_n) 2, tt)) : hlist field_decl [Z : Type; list N : Type] |}, ({| vd_attrs := [Some [TIdent "tag_num"; TPunct "="; TLiteral "0x1e"; TPunct ","; TIdent "tag_class"; TPunct "="; TIdent "APPLICATION"]]; vd_fields := (fld [] (int_n I32) 1, (fld [] (string_n) 2, tt)) : hlist field_decl [Z : Type; list N : Type] |}, ({| vd_attrs := [Some [TIdent "tag_num"; TPunct "="; TLiteral "0x1f"; TPunct ","; TIdent "tag_class"; TPunct "="; TIdent "APPLICATION"; TPunct ","; TIdent "id"; TPunct "="; TIdent "EOC"]]; vd_fields := (fld [] (int_n I32) 1, (fld [] (string_n) 2, tt)) : hlist field_decl [Z : Type; list N : Type] |}, ({| vd_attrs := [Some [TIdent "tag_num"; TPunct "="; TLiteral "0x7f"; TPunct ","; TIdent "tag_pc"; TPunct "="; TIdent "PRIMITIVE"]]; vd_fields := (fld [] (int_n I32) 1, (fld [] (string_n) 2, tt)) : hlist field_decl [Z : Type; list N : Type] |}, ({| vd_attrs := [Some [TIdent "tag_num"; TPunct "="; TLiteral "0x80"; TPunct ","; TIdent "tag_pc"; TPunct "="; TIdent "PRIMITIVE"; TPunct ","; TIdent "id"; TPunct "="; TIdent "EOC"]]; vd_fields := (fld [] (int_n I32) 1, (fld [] (string_n) 2, tt)) : hlist field_decl [Z : Type; list N : Type] |}, ({| vd_attrs := [Some [TIdent "tag_num"; TPunct "="; TLiteral "0x3fff"; TPunct ","; TIdent "tag_pc"; TPunct "="; TIdent "PRIMITIVE"; TPunct ","; TIdent "tag_class"; TPunct "="; TIdent "APPLICATION"]]; vd_fields := (fld [] (int_n I32) 1, (fld [] (string_n) 2, tt)) : hlist field_decl [Z : Type; list N : Type] |}, ({| vd_attrs := [Some [TIdent "tag_num"; TPunct "="; TLiteral "0x4000"; TPunct ","; TIdent "tag_pc"; TPunct "="; TIdent "PRIMITIVE"; TPunct ","; TIdent "tag_class"; TPunct "="; TIdent "APPLICATION"; TPunct ","; TIdent "id"; TPunct "="; TIdent "EOC"]]; vd_fields := (fld [] (int_n I32) 1, (fld [] (string_n) 2, tt)) : hlist field_decl [Z : Type; list N : Type] |}, tt))))))))))))))))).
Definition ser_named_field_enum_X_a : list syn_attribute := [].
Definition ser_named_field_enum_X_p : paths (value ser_named_field_enum_X_d) := no_paths _.
(** line 126 *)
Example ser_named_field_enum_test_xa : test_der ser_named_field_enum_X_a ser_named_field_enum_X_d ser_named_field_enum_X_p (inl tt) = Some (Ok [48; 0]) /\
  test_id_len ser_named_field_enum_X_a ser_named_field_enum_X_d ser_named_field_enum_X_p (inl tt) = Some (Ok (Some 1)) /\
  test_contents_len ser_named_field_enum_X_a ser_named_field_enum_X_d ser_named_field_enum_X_p (inl tt) = Some (Ok (Some 0)).
Proof. conforms. Qed.
(** line 142 *)
Example ser_named_field_enum_test_xb : test_der ser_named_field_enum_X_a ser_named_field_enum_X_d ser_named_field_enum_X_p (inr (inl ((315)%Z, ([102; 111; 111], tt)))) = Some (Ok [48; 9; 2; 2; 1; 59; 12; 3; 102; 111; 111]) /\
  test_id_len ser_named_field_enum_X_a ser_named_field_enum_X_d ser_named_field_enum_X_p (inr (inl ((315)%Z, ([102; 111; 111], tt)))) = Some (Ok (Some 1)) /\
  test_contents_len ser_named_field_enum_X_a ser_named_field_enum_X_d ser_named_field_enum_X_p (inr (inl ((315)%Z, ([102; 111; 111], tt)))) = Some (Ok (Some 9)).
Proof. conforms. Qed.
(** line 179 *)
Example ser_named_field_enum_test_xc : test_der ser_named_field_enum_X_a ser_named_field_enum_X_d ser_named_field_enum_X_p (inr (inr (inl ((315)%Z, ([102; 111; 111], tt))))) = Some (Ok [0; 9; 2; 2; 1; 59; 12; 3; 102; 111; 111]) /\
  test_id_len ser_named_field_enum_X_a ser_named_field_enum_X_d ser_named_field_enum_X_p (inr (inr (inl ((315)%Z, ([102; 111; 111], tt))))) = Some (Ok (Some 1)) /\
  test_contents_len ser_named_field_enum_X_a ser_named_field_enum_X_d ser_named_field_enum_X_p (inr (inr (inl ((315)%Z, ([102; 111; 111], tt))))) = Some (Ok (Some 9)).
Proof. conforms. Qed.
(** line 213 *)
Example ser_named_field_enum_test_xd : test_der ser_named_field_enum_X_a ser_named_field_enum_X_d ser_named_field_enum_X_p (inr (inr (inr (inl ((315)%Z, ([102; 111; 111], tt)))))) = Some (Ok [112; 9; 2; 2; 1; 59; 12; 3; 102; 111; 111]) /\
  test_id_len ser_named_field_enum_X_a ser_named_field_enum_X_d ser_named_field_enum_X_p (inr (inr (inr (inl ((315)%Z, ([102; 111; 111], tt)))))) = Some (Ok (Some 1)) /\
  test_contents_len ser_named_field_enum_X_a ser_named_field_enum_X_d ser_named_field_enum_X_p (inr (inr (inr (inl ((315)%Z, ([102; 111; 111], tt)))))) = Some (Ok (Some 9)).
Proof. conforms. Qed.
(** line 250 *)
Example ser_named_field_enum_test_xe : test_der ser_named_field_enum_X_a ser_named_field_enum_X_d ser_named_field_enum_X_p (inr (inr (inr (inr (inl ((315)%Z, ([102; 111; 111], tt))))))) = Some (Ok [64; 9; 2; 2; 1; 59; 12; 3; 102; 111; 111]) /\
  test_id_len ser_named_field_enum_X_a ser_named_field_enum_X_d ser_named_field_enum_X_p (inr (inr (inr (inr (inl ((315)%Z, ([102; 111; 111], tt))))))) = Some (Ok (Some 1)) /\
  test_contents_len ser_named_field_enum_X_a ser_named_field_enum_X_d ser_named_field_enum_X_p (inr (inr (inr (inr (inl ((315)%Z, ([102; 111; 111], tt))))))) = Some (Ok (Some 9)).
Proof. conforms. Qed.
(** line 284 *)
Example ser_named_field_enum_test_xf : test_der ser_named_field_enum_X_a ser_named_field_enum_X_d ser_named_field_enum_X_p (inr (inr (inr (inr (inr (inl ((315)%Z, ([102; 111; 111], tt)))))))) = Some (Ok [16; 9; 2; 2; 1; 59; 12; 3; 102; 111; 111]) /\
  test_id_len ser_named_field_enum_X_a ser_named_field_enum_X_d ser_named_field_enum_X_p (inr (inr (inr (inr (inr (inl ((315)%Z, ([102; 111; 111], tt)))))))) = Some (Ok (Some 1)) /\
  test_contents_len ser_named_field_enum_X_a ser_named_field_enum_X_d ser_named_field_enum_X_p (inr (inr (inr (inr (inr (inl ((315)%Z, ([102; 111; 111], tt)))))))) = Some (Ok (Some 9)).
Proof. conforms. Qed.
(** line 321 *)
Example ser_named_field_enum_test_xg : test_der ser_named_field_enum_X_a ser_named_field_enum_X_d ser_named_field_enum_X_p (inr (inr (inr (inr (inr (inr (inl ((315)%Z, ([102; 111; 111], tt))))))))) = Some (Ok [0; 9; 2; 2; 1; 59; 12; 3; 102; 111; 111]) /\
  test_id_len ser_named_field_enum_X_a ser_named_field_enum_X_d ser_named_field_enum_X_p (inr (inr (inr (inr (inr (inr (inl ((315)%Z, ([102; 111; 111], tt))))))))) = Some (Ok (Some 1)) /\
  test_contents_len ser_named_field_enum_X_a ser_named_field_enum_X_d ser_named_field_enum_X_p (inr (inr (inr (inr (inr (inr (inl ((315)%Z, ([102; 111; 111], tt))))))))) = Some (Ok (Some 9)).
Proof. conforms. Qed.
(** line 355 *)
Example ser_named_field_enum_test_xh : test_der ser_named_field_enum_X_a ser_named_field_enum_X_d ser_named_field_enum_X_p (inr (inr (inr (inr (inr (inr (inr (inl ((315)%Z, ([102; 111; 111], tt)))))))))) = Some (Ok [80; 9; 2; 2; 1; 59; 12; 3; 102; 111; 111]) /\
  test_id_len ser_named_field_enum_X_a ser_named_field_enum_X_d ser_named_field_enum_X_p (inr (inr (inr (inr (inr (inr (inr (inl ((315)%Z, ([102; 111; 111], tt)))))))))) = Some (Ok (Some 1)) /\
  test_contents_len ser_named_field_enum_X_a ser_named_field_enum_X_d ser_named_field_enum_X_p (inr (inr (inr (inr (inr (inr (inr (inl ((315)%Z, ([102; 111; 111], tt)))))))))) = Some (Ok (Some 9)).
Proof. conforms. Qed.
(** line 392 *)
Example ser_named_field_enum_test_xi : test_der ser_named_field_enum_X_a ser_named_field_enum_X_d ser_named_field_enum_X_p (inr (inr (inr (inr (inr (inr (inr (inr (inl ((315)%Z, ([102; 111; 111], tt))))))))))) = Some (Ok [64; 9; 2; 2; 1; 59; 12; 3; 102; 111; 111]) /\
  test_id_len ser_named_field_enum_X_a ser_named_field_enum_X_d ser_named_field_enum_X_p (inr (inr (inr (inr (inr (inr (inr (inr (inl ((315)%Z, ([102; 111; 111], tt))))))))))) = Some (Ok (Some 1)) /\
  test_contents_len ser_named_field_enum_X_a ser_named_field_enum_X_d ser_named_field_enum_X_p (inr (inr (inr (inr (inr (inr (inr (inr (inl ((315)%Z, ([102; 111; 111], tt))))))))))) = Some (Ok (Some 9)).
Proof. conforms. Qed.
(** line 426 *)
Example ser_named_field_enum_test_xj : test_der ser_named_field_enum_X_a ser_named_field_enum_X_d ser_named_field_enum_X_p (inr (inr (inr (inr (inr (inr (inr (inr (inr (inl ((315)%Z, ([102; 111; 111], tt)))))))))))) = Some (Ok [32; 9; 2; 2; 1; 59; 12; 3; 102; 111; 111]) /\
  test_id_len ser_named_field_enum_X_a ser_named_field_enum_X_d ser_named_field_enum_X_p (inr (inr (inr (inr (inr (inr (inr (inr (inr (inl ((315)%Z, ([102; 111; 111], tt)))))))))))) = Some (Ok (Some 1)) /\
  test_contents_len ser_named_field_enum_X_a ser_named_field_enum_X_d ser_named_field_enum_X_p (inr (inr (inr (inr (inr (inr (inr (inr (inr (inl ((315)%Z, ([102; 111; 111], tt)))))))))))) = Some (Ok (Some 9)).
Proof. conforms. Qed.
(** line 460 *)
Example ser_named_field_enum_test_xk : test_der ser_named_field_enum_X_a ser_named_field_enum_X_d ser_named_field_enum_X_p (inr (inr (inr (inr (inr (inr (inr (inr (inr (inr (inl ((315)%Z, ([102; 111; 111], tt))))))))))))) = Some (Ok [1; 9; 2; 2; 1; 59; 12; 3; 102; 111; 111]) /\
  test_id_len ser_named_field_enum_X_a ser_named_field_enum_X_d ser_named_field_enum_X_p (inr (inr (inr (inr (inr (inr (inr (inr (inr (inr (inl ((315)%Z, ([102; 111; 111], tt))))))))))))) = Some (Ok (Some 1)) /\
  test_contents_len ser_named_field_enum_X_a ser_named_field_enum_X_d ser_named_field_enum_X_p (inr (inr (inr (inr (inr (inr (inr (inr (inr (inr (inl ((315)%Z, ([102; 111; 111], tt))))))))))))) = Some (Ok (Some 9)).
Proof. conforms. Qed.
(** line 494 *)
Example ser_named_field_enum_test_xl : test_der ser_named_field_enum_X_a ser_named_field_enum_X_d ser_named_field_enum_X_p (inr (inr (inr (inr (inr (inr (inr (inr (inr (inr (inr (inl ((315)%Z, ([102; 111; 111], tt)))))))))))))) = Some (Ok [126; 9; 2; 2; 1; 59; 12; 3; 102; 111; 111]) /\
  test_id_len ser_named_field_enum_X_a ser_named_field_enum_X_d ser_named_field_enum_X_p (inr (inr (inr (inr (inr (inr (inr (inr (inr (inr (inr (inl ((315)%Z, ([102; 111; 111], tt)))))))))))))) = Some (Ok (Some 1)) /\
  test_contents_len ser_named_field_enum_X_a ser_named_field_enum_X_d ser_named_field_enum_X_p (inr (inr (inr (inr (inr (inr (inr (inr (inr (inr (inr (inl ((315)%Z, ([102; 111; 111], tt)))))))))))))) = Some (Ok (Some 9)).
Proof. conforms. Qed.
(** line 528 *)
Example ser_named_field_enum_test_xm : test_der ser_named_field_enum_X_a ser_named_field_enum_X_d ser_named_field_enum_X_p (inr (inr (inr (inr (inr (inr (inr (inr (inr (inr (inr (inr (inl ((315)%Z, ([102; 111; 111], tt))))))))))))))) = Some (Ok [95; 31; 9; 2; 2; 1; 59; 12; 3; 102; 111; 111]) /\
  test_id_len ser_named_field_enum_X_a ser_named_field_enum_X_d ser_named_field_enum_X_p (inr (inr (inr (inr (inr (inr (inr (inr (inr (inr (inr (inr (inl ((315)%Z, ([102; 111; 111], tt))))))))))))))) = Some (Ok (Some 2)) /\
  test_contents_len ser_named_field_enum_X_a ser_named_field_enum_X_d ser_named_field_enum_X_p (inr (inr (inr (inr (inr (inr (inr (inr (inr (inr (inr (inr (inl ((315)%Z, ([102; 111; 111], tt))))))))))))))) = Some (Ok (Some 9)).
Proof. conforms. Qed.
(** line 562 *)
Example ser_named_field_enum_test_xn : test_der ser_named_field_enum_X_a ser_named_field_enum_X_d ser_named_field_enum_X_p (inr (inr (inr (inr (inr (inr (inr (inr (inr (inr (inr (inr (inr (inl ((315)%Z, ([102; 111; 111], tt)))))))))))))))) = Some (Ok [31; 127; 9; 2; 2; 1; 59; 12; 3; 102; 111; 111]) /\
  test_id_len ser_named_field_enum_X_a ser_named_field_enum_X_d ser_named_field_enum_X_p (inr (inr (inr (inr (inr (inr (inr (inr (inr (inr (inr (inr (inr (inl ((315)%Z, ([102; 111; 111], tt)))))))))))))))) = Some (Ok (Some 2)) /\
  test_contents_len ser_named_field_enum_X_a ser_named_field_enum_X_d ser_named_field_enum_X_p (inr (inr (inr (inr (inr (inr (inr (inr (inr (inr (inr (inr (inr (inl ((315)%Z, ([102; 111; 111], tt)))))))))))))))) = Some (Ok (Some 9)).
Proof. conforms. Qed.
(** line 596 *)
Example ser_named_field_enum_test_xo : test_der ser_named_field_enum_X_a ser_named_field_enum_X_d ser_named_field_enum_X_p (inr (inr (inr (inr (inr (inr (inr (inr (inr (inr (inr (inr (inr (inr (inl ((315)%Z, ([102; 111; 111], tt))))))))))))))))) = Some (Ok [31; 129; 0; 9; 2; 2; 1; 59; 12; 3; 102; 111; 111]) /\
  test_id_len ser_named_field_enum_X_a ser_named_field_enum_X_d ser_named_field_enum_X_p (inr (inr (inr (inr (inr (inr (inr (inr (inr (inr (inr (inr (inr (inr (inl ((315)%Z, ([102; 111; 111], tt))))))))))))))))) = Some (Ok (Some 3)) /\
  test_contents_len ser_named_field_enum_X_a ser_named_field_enum_X_d ser_named_field_enum_X_p (inr (inr (inr (inr (inr (inr (inr (inr (inr (inr (inr (inr (inr (inr (inl ((315)%Z, ([102; 111; 111], tt))))))))))))))))) = Some (Ok (Some 9)).
Proof. conforms. Qed.
(** line 630 *)
Example ser_named_field_enum_test_xp : test_der ser_named_field_enum_X_a ser_named_field_enum_X_d ser_named_field_enum_X_p (inr (inr (inr (inr (inr (inr (inr (inr (inr (inr (inr (inr (inr (inr (inr (inl ((315)%Z, ([102; 111; 111], tt)))))))))))))))))) = Some (Ok [95; 255; 127; 9; 2; 2; 1; 59; 12; 3; 102; 111; 111]) /\
  test_id_len ser_named_field_enum_X_a ser_named_field_enum_X_d ser_named_field_enum_X_p (inr (inr (inr (inr (inr (inr (inr (inr (inr (inr (inr (inr (inr (inr (inr (inl ((315)%Z, ([102; 111; 111], tt)))))))))))))))))) = Some (Ok (Some 3)) /\
  test_contents_len ser_named_field_enum_X_a ser_named_field_enum_X_d ser_named_field_enum_X_p (inr (inr (inr (inr (inr (inr (inr (inr (inr (inr (inr (inr (inr (inr (inr (inl ((315)%Z, ([102; 111; 111], tt)))))))))))))))))) = Some (Ok (Some 9)).
Proof. conforms. Qed.
(** line 664 *)
Example ser_named_field_enum_test_xq : test_der ser_named_field_enum_X_a ser_named_field_enum_X_d ser_named_field_enum_X_p (inr (inr (inr (inr (inr (inr (inr (inr (inr (inr (inr (inr (inr (inr (inr (inr (inl ((315)%Z, ([102; 111; 111], tt))))))))))))))))))) = Some (Ok [95; 129; 128; 0; 9; 2; 2; 1; 59; 12; 3; 102; 111; 111]) /\
  test_id_len ser_named_field_enum_X_a ser_named_field_enum_X_d ser_named_field_enum_X_p (inr (inr (inr (inr (inr (inr (inr (inr (inr (inr (inr (inr (inr (inr (inr (inr (inl ((315)%Z, ([102; 111; 111], tt))))))))))))))))))) = Some (Ok (Some 4)) /\
  test_contents_len ser_named_field_enum_X_a ser_named_field_enum_X_d ser_named_field_enum_X_p (inr (inr (inr (inr (inr (inr (inr (inr (inr (inr (inr (inr (inr (inr (inr (inr (inl ((315)%Z, ([102; 111; 111], tt))))))))))))))))))) = Some (Ok (Some 9)).
Proof. conforms. Qed.

(** tests/ser/skip.rs *)
Definition ser_skip_B_T : list Type := [Z : Type].
Definition ser_skip_B_d : data := DStruct ser_skip_B_T (fld [Some [TIdent "skip"]] (int_n I32) 1, tt).
Definition ser_skip_B_a : list syn_attribute := [None].
Definition ser_skip_B_p : paths (value ser_skip_B_d) := no_paths _.
Definition ser_skip_C_T : list Type := [Z : Type; list N : Type].
Definition ser_skip_C_d : data := DStruct ser_skip_C_T (fld [Some [TIdent "skip"; TPunct ","; TIdent "skip_serializing"]] (int_n I32) 1, (fld [] (string_n) 2, tt)).
Definition ser_skip_C_a : list syn_attribute := [Some [TIdent "id"; TPunct "="; TIdent "UTF8String"]].
Definition ser_skip_C_p : paths (value ser_skip_C_d) := no_paths _.
Definition ser_skip_D_T : list Type := [Z : Type; list N : Type].
Definition ser_skip_D_d : data := DStruct ser_skip_D_T (fld [] (int_n I32) 1, (fld [Some [TIdent "skip"; TPunct ","; TIdent "skip_serializing"]] (string_n) 2, tt)).
Definition ser_skip_D_a : list syn_attribute := [Some [TIdent "tag_class"; TPunct "="; TIdent "PRIVATE"]].
Definition ser_skip_D_p : paths (value ser_skip_D_d) := no_paths _.
Definition ser_skip_E_T : list Type := [Z : Type; list N : Type; bool : Type].
Definition ser_skip_E_d : data := DStruct ser_skip_E_T (fld [] (int_n I32) 1, (fld [Some [TIdent "skip"]] (string_n) 2, (fld [] (bool_n) 3, tt))).
Definition ser_skip_E_a : list syn_attribute := [Some [TIdent "id"; TPunct "="; TIdent "UTF8String"; TPunct ","; TIdent "tag_class"; TPunct "="; TIdent "PRIVATE"]].
Definition ser_skip_E_p : paths (value ser_skip_E_d) := no_paths _.
Definition ser_skip_F_T : list Type := [Z : Type].
Definition ser_skip_F_d : data := DStruct ser_skip_F_T (fld [Some [TIdent "skip"]] (int_n I32) 1, tt).
Definition ser_skip_F_a : list syn_attribute := [Some [TIdent "tag_pc"; TPunct "="; TIdent "PRIMITIVE"]].
Definition ser_skip_F_p : paths (value ser_skip_F_d) := no_paths _.
Definition ser_skip_G_T : list Type := [Z : Type; list N : Type].
Definition ser_skip_G_d : data := DStruct ser_skip_G_T (fld [Some [TIdent "skip"; TPunct ","; TIdent "skip_serializing"]] (int_n I32) 1, (fld [] (string_n) 2, tt)).
Definition ser_skip_G_a : list syn_attribute := [Some [TIdent "id"; TPunct "="; TIdent "UTF8String"; TPunct ","; TIdent "tag_pc"; TPunct "="; TIdent "PRIMITIVE"]].
Definition ser_skip_G_p : paths (value ser_skip_G_d) := no_paths _.
Definition ser_skip_H_T : list Type := [Z : Type; list N : Type].
Definition ser_skip_H_d : data := DStruct ser_skip_H_T (fld [] (int_n I32) 1, (fld [Some [TIdent "skip"; TPunct ","; TIdent "skip_serializing"]] (string_n) 2, tt)).
Definition ser_skip_H_a : list syn_attribute := [Some [TIdent "tag_class"; TPunct "="; TIdent "PRIVATE"; TPunct ","; TIdent "tag_pc"; TPunct "="; TIdent "PRIMITIVE"]].
Definition ser_skip_H_p : paths (value ser_skip_H_d) := no_paths _.
Definition ser_skip_I_T : list Type := [Z : Type; list N : Type; bool : Type].
Definition ser_skip_I_d : data := DStruct ser_skip_I_T (fld [] (int_n I32) 1, (fld [Some [TIdent "skip"]] (string_n) 2, (fld [] (bool_n) 3, tt))).
Definition ser_skip_I_a : list syn_attribute := [Some [TIdent "id"; TPunct "="; TIdent "UTF8String"; TPunct ","; TIdent "tag_class"; TPunct "="; TIdent "PRIVATE"; TPunct ","; TIdent "tag_pc"; TPunct "="; TIdent "PRIMITIVE"]].
Definition ser_skip_I_p : paths (value ser_skip_I_d) := no_paths _.
Definition ser_skip_X_T : list (list Type) := [[Z : Type]; [Z : Type; list N : Type]; [Z : Type; list N : Type]; [Z : Type; list N : Type; bool : Type]; [Z : Type]; [Z : Type; list N : Type]; [Z : Type; list N : Type]; [Z : Type; list N : Type; bool : Type]].
Definition ser_skip_X_d : data := DEnum ser_skip_X_T ({| vd_attrs := [Some [TIdent "tag_num"; TPunct "="; TLiteral "0"]]; vd_fields := (fld [Some [TIdent "skip"; TPunct ","; TIdent "skip_serializing"]] (int_n I32) 1, tt) : hlist field_decl [Z : Type] |}, ({| vd_attrs := [Some [TIdent "id"; TPunct "="; TIdent "UTF8String"; TPunct ","; TIdent "tag_num"; TPunct "="; TLiteral "1"]]; vd_fields := (fld [Some [TIdent "skip"]] (int_n I32) 1, (fld [] (string_n) 2, tt)) : hlist field_decl [Z : Type; list N : Type] |}, ({| vd_attrs := [Some [TIdent "tag_class"; TPunct "="; TIdent "PRIVATE"; TPunct ","; TIdent "tag_num"; TPunct "="; TLiteral "0x1e"]]; vd_fields := (fld [] (int_n I32) 1, (fld [Some [TIdent "skip"]] (string_n) 2, tt)) : hlist field_decl [Z : Type; list N : Type] |}, ({| vd_attrs := [Some [TIdent "id"; TPunct "="; TIdent "UTF8String"; TPunct ","; TIdent "tag_class"; TPunct "="; TIdent "PRIVATE"; TPunct ","; TIdent "tag_num"; TPunct "="; TLiteral "0x1f"]]; vd_fields := (fld [] (int_n I32) 1, (fld [Some [TIdent "skip"; TPunct ","; TIdent "skip_serializing"]] (string_n) 2, (fld [] (bool_n) 3, tt))) : hlist field_decl [Z : Type; list N : Type; bool : Type] |}, ({| vd_attrs := [Some [TIdent "tag_pc"; TPunct "="; TIdent "PRIMITIVE"; TPunct ","; TIdent "tag_num"; TPunct "="; TLiteral "0x7f"]]; vd_fields := (fld [Some [TIdent "skip"; TPunct ","; TIdent "skip_serializing"]] (int_n I32) 1, tt) : hlist field_decl [Z : Type] |}, ({| vd_attrs := [Some [TIdent "id"; TPunct "="; TIdent "UTF8String"; TPunct ","; TIdent "tag_pc"; TPunct "="; TIdent "PRIMITIVE"; TPunct ","; TIdent "tag_num"; TPunct "="; TLiteral "0x80"]]; vd_fields := (fld [Some [TIdent "skip"]] (int_n I32) 1, (fld [] (string_n) 2, tt)) : hlist field_decl [Z : Type; list N : Type] |}, ({| vd_attrs := [Some [TIdent "tag_class"; TPunct "="; TIdent "PRIVATE"; TPunct ","; TIdent "tag_pc"; TPunct "="; TIdent "PRIMITIVE"; TPunct ","; TIdent "tag_num"; TPunct "="; TLiteral "0x3fff"]]; vd_fields := (fld [] (int_n I32) 1, (fld [Some [TIdent "skip"]] (string_n) 2, tt)) : hlist field_decl [Z : Type; list N : Type] |}, ({| vd_attrs := [Some [TIdent "id"; TPunct "="; TIdent "UTF8String"; TPunct ","; TIdent "tag_class"; TPunct "="; TIdent "PRIVATE"; TPunct ","; TIdent "tag_pc"; TPunct "="; TIdent "PRIMITIVE"; TPunct ","; TIdent "tag_num"; TPunct "="; TLiteral "0x4000"]]; vd_fields := (fld [] (int_n I32) 1, (fld [Some [TIdent "skip"; TPunct ","; TIdent "skip_serializing"]] (string_n) 2, (fld [] (bool_n) 3, tt))) : hlist field_decl [Z : Type; list N : Type; bool : Type] |}, tt)))))))).
Definition ser_skip_X_a : list syn_attribute := [].
Definition ser_skip_X_p : paths (value ser_skip_X_d) := no_paths _.
(** line 128 *)
Example ser_skip_test_b : test_der ser_skip_B_a ser_skip_B_d ser_skip_B_p ((315)%Z, tt) = Some (Ok [48; 0]) /\
  test_id_len ser_skip_B_a ser_skip_B_d ser_skip_B_p ((315)%Z, tt) = Some (Ok (Some 1)) /\
  test_contents_len ser_skip_B_a ser_skip_B_d ser_skip_B_p ((315)%Z, tt) = Some (Ok (Some 0)).
Proof. conforms. Qed.
(** line 149 *)
Example ser_skip_test_c : test_der ser_skip_C_a ser_skip_C_d ser_skip_C_p ((315)%Z, ([102; 111; 111], tt)) = Some (Ok [12; 5; 12; 3; 102; 111; 111]) /\
  test_id_len ser_skip_C_a ser_skip_C_d ser_skip_C_p ((315)%Z, ([102; 111; 111], tt)) = Some (Ok (Some 1)) /\
  test_contents_len ser_skip_C_a ser_skip_C_d ser_skip_C_p ((315)%Z, ([102; 111; 111], tt)) = Some (Ok (Some 5)).
Proof. conforms. Qed.
(** line 181 *)
Example ser_skip_test_d : test_der ser_skip_D_a ser_skip_D_d ser_skip_D_p ((315)%Z, ([102; 111; 111], tt)) = Some (Ok [240; 4; 2; 2; 1; 59]) /\
  test_id_len ser_skip_D_a ser_skip_D_d ser_skip_D_p ((315)%Z, ([102; 111; 111], tt)) = Some (Ok (Some 1)) /\
  test_contents_len ser_skip_D_a ser_skip_D_d ser_skip_D_p ((315)%Z, ([102; 111; 111], tt)) = Some (Ok (Some 4)).
Proof. conforms. Qed.
(** line 213 *)
Example ser_skip_test_e : test_der ser_skip_E_a ser_skip_E_d ser_skip_E_p ((315)%Z, ([102; 111; 111], (true, tt))) = Some (Ok [204; 7; 2; 2; 1; 59; 1; 1; 255]) /\
  test_id_len ser_skip_E_a ser_skip_E_d ser_skip_E_p ((315)%Z, ([102; 111; 111], (true, tt))) = Some (Ok (Some 1)) /\
  test_contents_len ser_skip_E_a ser_skip_E_d ser_skip_E_p ((315)%Z, ([102; 111; 111], (true, tt))) = Some (Ok (Some 7)).
Proof. conforms. Qed.
(** line 249 *)
Example ser_skip_test_f : test_der ser_skip_F_a ser_skip_F_d ser_skip_F_p ((315)%Z, tt) = Some (Ok [16; 0]) /\
  test_id_len ser_skip_F_a ser_skip_F_d ser_skip_F_p ((315)%Z, tt) = Some (Ok (Some 1)) /\
  test_contents_len ser_skip_F_a ser_skip_F_d ser_skip_F_p ((315)%Z, tt) = Some (Ok (Some 0)).
Proof. conforms. Qed.
(** line 270 *)
Example ser_skip_test_g : test_der ser_skip_G_a ser_skip_G_d ser_skip_G_p ((315)%Z, ([102; 111; 111], tt)) = Some (Ok [12; 5; 12; 3; 102; 111; 111]) /\
  test_id_len ser_skip_G_a ser_skip_G_d ser_skip_G_p ((315)%Z, ([102; 111; 111], tt)) = Some (Ok (Some 1)) /\
  test_contents_len ser_skip_G_a ser_skip_G_d ser_skip_G_p ((315)%Z, ([102; 111; 111], tt)) = Some (Ok (Some 5)).
Proof. conforms. Qed.
(** line 299 *)
Example ser_skip_test_h : test_der ser_skip_H_a ser_skip_H_d ser_skip_H_p ((315)%Z, ([102; 111; 111], tt)) = Some (Ok [208; 4; 2; 2; 1; 59]) /\
  test_id_len ser_skip_H_a ser_skip_H_d ser_skip_H_p ((315)%Z, ([102; 111; 111], tt)) = Some (Ok (Some 1)) /\
  test_contents_len ser_skip_H_a ser_skip_H_d ser_skip_H_p ((315)%Z, ([102; 111; 111], tt)) = Some (Ok (Some 4)).
Proof. conforms. Qed.
(** line 328 *)
Example ser_skip_test_i : test_der ser_skip_I_a ser_skip_I_d ser_skip_I_p ((315)%Z, ([102; 111; 111], (false, tt))) = Some (Ok [204; 7; 2; 2; 1; 59; 1; 1; 0]) /\
  test_id_len ser_skip_I_a ser_skip_I_d ser_skip_I_p ((315)%Z, ([102; 111; 111], (false, tt))) = Some (Ok (Some 1)) /\
  test_contents_len ser_skip_I_a ser_skip_I_d ser_skip_I_p ((315)%Z, ([102; 111; 111], (false, tt))) = Some (Ok (Some 7)).
Proof. conforms. Qed.
(** line 360 *)
Example ser_skip_test_xj : test_der ser_skip_X_a ser_skip_X_d ser_skip_X_p (inl ((315)%Z, tt)) = Some (Ok [32; 0]) /\
  test_id_len ser_skip_X_a ser_skip_X_d ser_skip_X_p (inl ((315)%Z, tt)) = Some (Ok (Some 1)) /\
  test_contents_len ser_skip_X_a ser_skip_X_d ser_skip_X_p (inl ((315)%Z, tt)) = Some (Ok (Some 0)).
Proof. conforms. Qed.
(** line 378 *)
Example ser_skip_test_xk : test_der ser_skip_X_a ser_skip_X_d ser_skip_X_p (inr (inl ((315)%Z, ([102; 111; 111], tt)))) = Some (Ok [1; 5; 12; 3; 102; 111; 111]) /\
  test_id_len ser_skip_X_a ser_skip_X_d ser_skip_X_p (inr (inl ((315)%Z, ([102; 111; 111], tt)))) = Some (Ok (Some 1)) /\
  test_contents_len ser_skip_X_a ser_skip_X_d ser_skip_X_p (inr (inl ((315)%Z, ([102; 111; 111], tt)))) = Some (Ok (Some 5)).
Proof. conforms. Qed.
(** line 407 *)
Example ser_skip_test_xl : test_der ser_skip_X_a ser_skip_X_d ser_skip_X_p (inr (inr (inl ((315)%Z, ([102; 111; 111], tt))))) = Some (Ok [254; 4; 2; 2; 1; 59]) /\
  test_id_len ser_skip_X_a ser_skip_X_d ser_skip_X_p (inr (inr (inl ((315)%Z, ([102; 111; 111], tt))))) = Some (Ok (Some 1)) /\
  test_contents_len ser_skip_X_a ser_skip_X_d ser_skip_X_p (inr (inr (inl ((315)%Z, ([102; 111; 111], tt))))) = Some (Ok (Some 4)).
Proof. conforms. Qed.
(** line 436 *)
Example ser_skip_test_xm : test_der ser_skip_X_a ser_skip_X_d ser_skip_X_p (inr (inr (inr (inl ((315)%Z, ([102; 111; 111], (true, tt))))))) = Some (Ok [223; 31; 7; 2; 2; 1; 59; 1; 1; 255]) /\
  test_id_len ser_skip_X_a ser_skip_X_d ser_skip_X_p (inr (inr (inr (inl ((315)%Z, ([102; 111; 111], (true, tt))))))) = Some (Ok (Some 2)) /\
  test_contents_len ser_skip_X_a ser_skip_X_d ser_skip_X_p (inr (inr (inr (inl ((315)%Z, ([102; 111; 111], (true, tt))))))) = Some (Ok (Some 7)).
Proof. conforms. Qed.
(** line 469 *)
Example ser_skip_test_xn : test_der ser_skip_X_a ser_skip_X_d ser_skip_X_p (inr (inr (inr (inr (inl ((315)%Z, tt)))))) = Some (Ok [31; 127; 0]) /\
  test_id_len ser_skip_X_a ser_skip_X_d ser_skip_X_p (inr (inr (inr (inr (inl ((315)%Z, tt)))))) = Some (Ok (Some 2)) /\
  test_contents_len ser_skip_X_a ser_skip_X_d ser_skip_X_p (inr (inr (inr (inr (inl ((315)%Z, tt)))))) = Some (Ok (Some 0)).
Proof. conforms. Qed.
(** line 487 *)
Example ser_skip_test_xo : test_der ser_skip_X_a ser_skip_X_d ser_skip_X_p (inr (inr (inr (inr (inr (inl ((315)%Z, ([102; 111; 111], tt)))))))) = Some (Ok [31; 129; 0; 5; 12; 3; 102; 111; 111]) /\
  test_id_len ser_skip_X_a ser_skip_X_d ser_skip_X_p (inr (inr (inr (inr (inr (inl ((315)%Z, ([102; 111; 111], tt)))))))) = Some (Ok (Some 3)) /\
  test_contents_len ser_skip_X_a ser_skip_X_d ser_skip_X_p (inr (inr (inr (inr (inr (inl ((315)%Z, ([102; 111; 111], tt)))))))) = Some (Ok (Some 5)).
Proof. conforms. Qed.
(** line 513 *)
Example ser_skip_test_xp : test_der ser_skip_X_a ser_skip_X_d ser_skip_X_p (inr (inr (inr (inr (inr (inr (inl ((315)%Z, ([102; 111; 111], tt))))))))) = Some (Ok [223; 255; 127; 4; 2; 2; 1; 59]) /\
  test_id_len ser_skip_X_a ser_skip_X_d ser_skip_X_p (inr (inr (inr (inr (inr (inr (inl ((315)%Z, ([102; 111; 111], tt))))))))) = Some (Ok (Some 3)) /\
  test_contents_len ser_skip_X_a ser_skip_X_d ser_skip_X_p (inr (inr (inr (inr (inr (inr (inl ((315)%Z, ([102; 111; 111], tt))))))))) = Some (Ok (Some 4)).
Proof. conforms. Qed.
(** line 539 *)
Example ser_skip_test_xq : test_der ser_skip_X_a ser_skip_X_d ser_skip_X_p (inr (inr (inr (inr (inr (inr (inr (inl ((315)%Z, ([102; 111; 111], (false, tt))))))))))) = Some (Ok [223; 129; 128; 0; 7; 2; 2; 1; 59; 1; 1; 0]) /\
  test_id_len ser_skip_X_a ser_skip_X_d ser_skip_X_p (inr (inr (inr (inr (inr (inr (inr (inl ((315)%Z, ([102; 111; 111], (false, tt))))))))))) = Some (Ok (Some 4)) /\
  test_contents_len ser_skip_X_a ser_skip_X_d ser_skip_X_p (inr (inr (inr (inr (inr (inr (inr (inl ((315)%Z, ([102; 111; 111], (false, tt))))))))))) = Some (Ok (Some 7)).
Proof. conforms. Qed.

(** tests/ser/skip_serializing.rs *)
Definition ser_skip_serializing_B_T : list Type := [Z : Type].
Definition ser_skip_serializing_B_d : data := DStruct ser_skip_serializing_B_T (fld [Some [TIdent "skip_serializing"]] (int_n I32) 1, tt).
Definition ser_skip_serializing_B_a : list syn_attribute := [None].
Definition ser_skip_serializing_B_p : paths (value ser_skip_serializing_B_d) := no_paths _.
Definition ser_skip_serializing_C_T : list Type := [Z : Type; list N : Type].
Definition ser_skip_serializing_C_d : data := DStruct ser_skip_serializing_C_T (fld [Some [TIdent "skip_serializing"]] (int_n I32) 1, (fld [] (string_n) 2, tt)).
Definition ser_skip_serializing_C_a : list syn_attribute := [Some [TIdent "id"; TPunct "="; TIdent "Integer"]].
Definition ser_skip_serializing_C_p : paths (value ser_skip_serializing_C_d) := no_paths _.
Definition ser_skip_serializing_D_T : list Type := [Z : Type; list N : Type].
Definition ser_skip_serializing_D_d : data := DStruct ser_skip_serializing_D_T (fld [] (int_n I32) 1, (fld [Some [TIdent "skip_serializing"]] (string_n) 2, tt)).
Definition ser_skip_serializing_D_a : list syn_attribute := [Some [TIdent "tag_class"; TPunct "="; TIdent "APPLICATION"]].
Definition ser_skip_serializing_D_p : paths (value ser_skip_serializing_D_d) := no_paths _.
Definition ser_skip_serializing_E_T : list Type := [Z : Type; list N : Type; bool : Type].
Definition ser_skip_serializing_E_d : data := DStruct ser_skip_serializing_E_T (fld [] (int_n I32) 1, (fld [Some [TIdent "skip_serializing"]] (string_n) 2, (fld [] (bool_n) 3, tt))).
Definition ser_skip_serializing_E_a : list syn_attribute := [Some [TIdent "id"; TPunct "="; TIdent "Integer"; TPunct ","; TIdent "tag_class"; TPunct "="; TIdent "APPLICATION"]].
Definition ser_skip_serializing_E_p : paths (value ser_skip_serializing_E_d) := no_paths _.
Definition ser_skip_serializing_F_T : list Type := [Z : Type].
Definition ser_skip_serializing_F_d : data := DStruct ser_skip_serializing_F_T (fld [Some [TIdent "skip_serializing"]] (int_n I32) 1, tt).
Definition ser_skip_serializing_F_a : list syn_attribute := [Some [TIdent "tag_pc"; TPunct "="; TIdent "CONSTRUCTED"]].
Definition ser_skip_serializing_F_p : paths (value ser_skip_serializing_F_d) := no_paths _.
Definition ser_skip_serializing_G_T : list Type := [Z : Type; list N : Type].
Definition ser_skip_serializing_G_d : data := DStruct ser_skip_serializing_G_T (fld [Some [TIdent "skip_serializing"]] (int_n I32) 1, (fld [] (string_n) 2, tt)).
Definition ser_skip_serializing_G_a : list syn_attribute := [Some [TIdent "id"; TPunct "="; TIdent "Integer"; TPunct ","; TIdent "tag_pc"; TPunct "="; TIdent "CONSTRUCTED"]].
Definition ser_skip_serializing_G_p : paths (value ser_skip_serializing_G_d) := no_paths _.
Definition ser_skip_serializing_H_T : list Type := [Z : Type; list N : Type].
Definition ser_skip_serializing_H_d : data := DStruct ser_skip_serializing_H_T (fld [] (int_n I32) 1, (fld [Some [TIdent "skip_serializing"]] (string_n) 2, tt)).
Definition ser_skip_serializing_H_a : list syn_attribute := [Some [TIdent "tag_class"; TPunct "="; TIdent "APPLICATION"; TPunct ","; TIdent "tag_pc"; TPunct "="; TIdent "CONSTRUCTED"]].
Definition ser_skip_serializing_H_p : paths (value ser_skip_serializing_H_d) := no_paths _.
Definition ser_skip_serializing_I_T : list Type := [Z : Type; list N : Type; bool : Type].
Definition ser_skip_serializing_I_d : data := DStruct ser_skip_serializing_I_T (fld [] (int_n I32) 1, (fld [Some [TIdent "skip_serializing"]] (string_n) 2, (fld [] (bool_n) 3, tt))).
Definition ser_skip_serializing_I_a : list syn_attribute := [Some [TIdent "id"; TPunct "="; TIdent "Integer"; TPunct ","; TIdent "tag_class"; TPunct "="; TIdent "APPLICATION"; TPunct ","; TIdent "tag_pc"; TPunct "="; TIdent "CONSTRUCTED"]].
Definition ser_skip_serializing_I_p : paths (value ser_skip_serializing_I_d) := no_paths _.
Definition ser_skip_serializing_X_T : list (list Type) := [[Z : Type]; [Z : Type; list N : Type]; [Z : Type; list N : Type]; [Z : Type; list N : Type; bool : Type]; [Z : Type]; [Z : Type; list N : Type]; [Z : Type; list N : Type]; [Z : Type; list N : Type; bool : Type]].
Definition ser_skip_serializing_X_d : data := DEnum ser_skip_serializing_X_T ({| vd_attrs := [Some [TIdent "tag_num"; TPunct "="; TLiteral "0"]]; vd_fields := (fld [Some [TIdent "skip_serializing"]] (int_n I32) 1, tt) : hlist field_decl [Z : Type] |}, ({| vd_attrs := [Some [TIdent "id"; TPunct "="; TIdent "Integer"; TPunct ","; TIdent "tag_num"; TPunct "="; TLiteral "1"]]; vd_fields := (fld [Some [TIdent "skip_serializing"]] (int_n I32) 1, (fld [] (string_n) 2, tt)) : hlist field_decl [Z : Type; list N : Type] |}, ({| vd_attrs := [Some [TIdent "tag_class"; TPunct "="; TIdent "APPLICATION"; TPunct ","; TIdent "tag_num"; TPunct "="; TLiteral "0x1e"]]; vd_fields := (fld [] (int_n I32) 1, (fld [Some [TIdent "skip_serializing"]] (string_n) 2, tt)) : hlist field_decl [Z : Type; list N : Type] |}, ({| vd_attrs := [Some [TIdent "id"; TPunct "="; TIdent "Integer"; TPunct ","; TIdent "tag_class"; TPunct "="; TIdent "APPLICATION"; TPunct ","; TIdent "tag_num"; TPunct "="; TLiteral "0x1f"]]; vd_fields := (fld [] (int_n I32) 1, (fld [Some [TIdent "skip_serializing"]] (string_n) 2, (fld [] (bool_n) 3, tt))) : hlist field_decl [Z : Type; list N : Type; bool : Type] |}, ({| vd_attrs := [Some [TIdent "tag_pc"; TPunct "="; TIdent "CONSTRUCTED"; TPunct ","; TIdent "tag_num"; TPunct "="; TLiteral "0x7f"]]; vd_fields := (fld [Some [TIdent "skip_serializing"]] (int_n I32) 1, tt) : hlist field_decl [Z : Type] |}, ({| vd_attrs := [Some [TIdent "id"; TPunct "="; TIdent "Integer"; TPunct ","; TIdent "tag_pc"; TPunct "="; TIdent "CONSTRUCTED"; TPunct ","; TIdent "tag_num"; TPunct "="; TLiteral "0x80"]]; vd_fields := (fld [Some [TIdent "skip_serializing"]] (int_n I32) 1, (fld [] (string_n) 2, tt)) : hlist field_decl [Z : Type; list N : Type] |}, ({| vd_attrs := [Some [TIdent "tag_class"; TPunct "="; TIdent "APPLICATION"; TPunct ","; TIdent "tag_pc"; TPunct "="; TIdent "CONSTRUCTED"; TPunct ","; TIdent "tag_num"; TPunct "="; TLiteral "0x3fff"]]; vd_fields := (fld [] (int_n I32) 1, (fld [Some [TIdent "skip_serializing"]] (string_n) 2, tt)) : hlist field_decl [Z : Type; list N : Type] |}, ({| vd_attrs := [Some [TIdent "id"; TPunct "="; TIdent "Integer"; TPunct ","; TIdent "tag_class"; TPunct "="; TIdent "APPLICATION"; TPunct ","; TIdent "tag_pc"; TPunct "="; TIdent "CONSTRUCTED"; TPunct ","; TIdent "tag_num"; TPunct "="; TLiteral "0x4000"]]; vd_fields := (fld [] (int_n I32) 1, (fld [Some [TIdent "skip_serializing"]] (string_n) 2, (fld [] (bool_n) 3, tt))) : hlist field_decl [Z : Type; list N : Type; bool : Type] |}, tt)))))))).
Definition ser_skip_serializing_X_a : list syn_attribute := [].
Definition ser_skip_serializing_X_p : paths (value ser_skip_serializing_X_d) := no_paths _.
(** line 128 *)
Example ser_skip_serializing_test_b : test_der ser_skip_serializing_B_a ser_skip_serializing_B_d ser_skip_serializing_B_p ((315)%Z, tt) = Some (Ok [48; 0]) /\
  test_id_len ser_skip_serializing_B_a ser_skip_serializing_B_d ser_skip_serializing_B_p ((315)%Z, tt) = Some (Ok (Some 1)) /\
  test_contents_len ser_skip_serializing_B_a ser_skip_serializing_B_d ser_skip_serializing_B_p ((315)%Z, tt) = Some (Ok (Some 0)).
Proof. conforms. Qed.
(** line 149 *)
Example ser_skip_serializing_test_c : test_der ser_skip_serializing_C_a ser_skip_serializing_C_d ser_skip_serializing_C_p ((315)%Z, ([102; 111; 111], tt)) = Some (Ok [2; 5; 12; 3; 102; 111; 111]) /\
  test_id_len ser_skip_serializing_C_a ser_skip_serializing_C_d ser_skip_serializing_C_p ((315)%Z, ([102; 111; 111], tt)) = Some (Ok (Some 1)) /\
  test_contents_len ser_skip_serializing_C_a ser_skip_serializing_C_d ser_skip_serializing_C_p ((315)%Z, ([102; 111; 111], tt)) = Some (Ok (Some 5)).
Proof. conforms. Qed.
(** line 181 *)
Example ser_skip_serializing_test_d : test_der ser_skip_serializing_D_a ser_skip_serializing_D_d ser_skip_serializing_D_p ((315)%Z, ([102; 111; 111], tt)) = Some (Ok [112; 4; 2; 2; 1; 59]) /\
  test_id_len ser_skip_serializing_D_a ser_skip_serializing_D_d ser_skip_serializing_D_p ((315)%Z, ([102; 111; 111], tt)) = Some (Ok (Some 1)) /\
  test_contents_len ser_skip_serializing_D_a ser_skip_serializing_D_d ser_skip_serializing_D_p ((315)%Z, ([102; 111; 111], tt)) = Some (Ok (Some 4)).
Proof. conforms. Qed.
(** line 213 *)
Example ser_skip_serializing_test_e : test_der ser_skip_serializing_E_a ser_skip_serializing_E_d ser_skip_serializing_E_p ((315)%Z, ([102; 111; 111], (true, tt))) = Some (Ok [66; 7; 2; 2; 1; 59; 1; 1; 255]) /\
  test_id_len ser_skip_serializing_E_a ser_skip_serializing_E_d ser_skip_serializing_E_p ((315)%Z, ([102; 111; 111], (true, tt))) = Some (Ok (Some 1)) /\
  test_contents_len ser_skip_serializing_E_a ser_skip_serializing_E_d ser_skip_serializing_E_p ((315)%Z, ([102; 111; 111], (true, tt))) = Some (Ok (Some 7)).
Proof. conforms. Qed.
(** line 249 *)
Example ser_skip_serializing_test_f : test_der ser_skip_serializing_F_a ser_skip_serializing_F_d ser_skip_serializing_F_p ((315)%Z, tt) = Some (Ok [48; 0]) /\
  test_id_len ser_skip_serializing_F_a ser_skip_serializing_F_d ser_skip_serializing_F_p ((315)%Z, tt) = Some (Ok (Some 1)) /\
  test_contents_len ser_skip_serializing_F_a ser_skip_serializing_F_d ser_skip_serializing_F_p ((315)%Z, tt) = Some (Ok (Some 0)).
Proof. conforms. Qed.
(** line 270 *)
Example ser_skip_serializing_test_g : test_der ser_skip_serializing_G_a ser_skip_serializing_G_d ser_skip_serializing_G_p ((315)%Z, ([102; 111; 111], tt)) = Some (Ok [34; 5; 12; 3; 102; 111; 111]) /\
  test_id_len ser_skip_serializing_G_a ser_skip_serializing_G_d ser_skip_serializing_G_p ((315)%Z, ([102; 111; 111], tt)) = Some (Ok (Some 1)) /\
  test_contents_len ser_skip_serializing_G_a ser_skip_serializing_G_d ser_skip_serializing_G_p ((315)%Z, ([102; 111; 111], tt)) = Some (Ok (Some 5)).
Proof. conforms. Qed.
(** line 299 *)
Example ser_skip_serializing_test_h : test_der ser_skip_serializing_H_a ser_skip_serializing_H_d ser_skip_serializing_H_p ((315)%Z, ([102; 111; 111], tt)) = Some (Ok [112; 4; 2; 2; 1; 59]) /\
  test_id_len ser_skip_serializing_H_a ser_skip_serializing_H_d ser_skip_serializing_H_p ((315)%Z, ([102; 111; 111], tt)) = Some (Ok (Some 1)) /\
  test_contents_len ser_skip_serializing_H_a ser_skip_serializing_H_d ser_skip_serializing_H_p ((315)%Z, ([102; 111; 111], tt)) = Some (Ok (Some 4)).
Proof. conforms. Qed.
(** line 328 *)
Example ser_skip_serializing_test_i : test_der ser_skip_serializing_I_a ser_skip_serializing_I_d ser_skip_serializing_I_p ((315)%Z, ([102; 111; 111], (false, tt))) = Some (Ok [98; 7; 2; 2; 1; 59; 1; 1; 0]) /\
  test_id_len ser_skip_serializing_I_a ser_skip_serializing_I_d ser_skip_serializing_I_p ((315)%Z, ([102; 111; 111], (false, tt))) = Some (Ok (Some 1)) /\
  test_contents_len ser_skip_serializing_I_a ser_skip_serializing_I_d ser_skip_serializing_I_p ((315)%Z, ([102; 111; 111], (false, tt))) = Some (Ok (Some 7)).
Proof. conforms. Qed.
(** line 360 *)
Example ser_skip_serializing_test_xj : test_der ser_skip_serializing_X_a ser_skip_serializing_X_d ser_skip_serializing_X_p (inl ((315)%Z, tt)) = Some (Ok [32; 0]) /\
  test_id_len ser_skip_serializing_X_a ser_skip_serializing_X_d ser_skip_serializing_X_p (inl ((315)%Z, tt)) = Some (Ok (Some 1)) /\
  test_contents_len ser_skip_serializing_X_a ser_skip_serializing_X_d ser_skip_serializing_X_p (inl ((315)%Z, tt)) = Some (Ok (Some 0)).
Proof. conforms. Qed.
(** line 378 *)
Example ser_skip_serializing_test_xk : test_der ser_skip_serializing_X_a ser_skip_serializing_X_d ser_skip_serializing_X_p (inr (inl ((315)%Z, ([102; 111; 111], tt)))) = Some (Ok [1; 5; 12; 3; 102; 111; 111]) /\
  test_id_len ser_skip_serializing_X_a ser_skip_serializing_X_d ser_skip_serializing_X_p (inr (inl ((315)%Z, ([102; 111; 111], tt)))) = Some (Ok (Some 1)) /\
  test_contents_len ser_skip_serializing_X_a ser_skip_serializing_X_d ser_skip_serializing_X_p (inr (inl ((315)%Z, ([102; 111; 111], tt)))) = Some (Ok (Some 5)).
Proof. conforms. Qed.
(** line 407 *)
Example ser_skip_serializing_test_xl : test_der ser_skip_serializing_X_a ser_skip_serializing_X_d ser_skip_serializing_X_p (inr (inr (inl ((315)%Z, ([102; 111; 111], tt))))) = Some (Ok [126; 4; 2; 2; 1; 59]) /\
  test_id_len ser_skip_serializing_X_a ser_skip_serializing_X_d ser_skip_serializing_X_p (inr (inr (inl ((315)%Z, ([102; 111; 111], tt))))) = Some (Ok (Some 1)) /\
  test_contents_len ser_skip_serializing_X_a ser_skip_serializing_X_d ser_skip_serializing_X_p (inr (inr (inl ((315)%Z, ([102; 111; 111], tt))))) = Some (Ok (Some 4)).
Proof. conforms. Qed.
(** line 436 *)
Example ser_skip_serializing_test_xm : test_der ser_skip_serializing_X_a ser_skip_serializing_X_d ser_skip_serializing_X_p (inr (inr (inr (inl ((315)%Z, ([102; 111; 111], (true, tt))))))) = Some (Ok [95; 31; 7; 2; 2; 1; 59; 1; 1; 255]) /\
  test_id_len ser_skip_serializing_X_a ser_skip_serializing_X_d ser_skip_serializing_X_p (inr (inr (inr (inl ((315)%Z, ([102; 111; 111], (true, tt))))))) = Some (Ok (Some 2)) /\
  test_contents_len ser_skip_serializing_X_a ser_skip_serializing_X_d ser_skip_serializing_X_p (inr (inr (inr (inl ((315)%Z, ([102; 111; 111], (true, tt))))))) = Some (Ok (Some 7)).
Proof. conforms. Qed.
(** line 469 *)
Example ser_skip_serializing_test_xn : test_der ser_skip_serializing_X_a ser_skip_serializing_X_d ser_skip_serializing_X_p (inr (inr (inr (inr (inl ((315)%Z, tt)))))) = Some (Ok [63; 127; 0]) /\
  test_id_len ser_skip_serializing_X_a ser_skip_serializing_X_d ser_skip_serializing_X_p (inr (inr (inr (inr (inl ((315)%Z, tt)))))) = Some (Ok (Some 2)) /\
  test_contents_len ser_skip_serializing_X_a ser_skip_serializing_X_d ser_skip_serializing_X_p (inr (inr (inr (inr (inl ((315)%Z, tt)))))) = Some (Ok (Some 0)).
Proof. conforms. Qed.
(** line 487 *)
Example ser_skip_serializing_test_xo : test_der ser_skip_serializing_X_a ser_skip_serializing_X_d ser_skip_serializing_X_p (inr (inr (inr (inr (inr (inl ((315)%Z, ([102; 111; 111], tt)))))))) = Some (Ok [63; 129; 0; 5; 12; 3; 102; 111; 111]) /\
  test_id_len ser_skip_serializing_X_a ser_skip_serializing_X_d ser_skip_serializing_X_p (inr (inr (inr (inr (inr (inl ((315)%Z, ([102; 111; 111], tt)))))))) = Some (Ok (Some 3)) /\
  test_contents_len ser_skip_serializing_X_a ser_skip_serializing_X_d ser_skip_serializing_X_p (inr (inr (inr (inr (inr (inl ((315)%Z, ([102; 111; 111], tt)))))))) = Some (Ok (Some 5)).
Proof. conforms. Qed.
(** line 513 *)
Example ser_skip_serializing_test_xp : test_der ser_skip_serializing_X_a ser_skip_serializing_X_d ser_skip_serializing_X_p (inr (inr (inr (inr (inr (inr (inl ((315)%Z, ([102; 111; 111], tt))))))))) = Some (Ok [127; 255; 127; 4; 2; 2; 1; 59]) /\
  test_id_len ser_skip_serializing_X_a ser_skip_serializing_X_d ser_skip_serializing_X_p (inr (inr (inr (inr (inr (inr (inl ((315)%Z, ([102; 111; 111], tt))))))))) = Some (Ok (Some 3)) /\
  test_contents_len ser_skip_serializing_X_a ser_skip_serializing_X_d ser_skip_serializing_X_p (inr (inr (inr (inr (inr (inr (inl ((315)%Z, ([102; 111; 111], tt))))))))) = Some (Ok (Some 4)).
Proof. conforms. Qed.
(** line 539 *)
Example ser_skip_serializing_test_xq : test_der ser_skip_serializing_X_a ser_skip_serializing_X_d ser_skip_serializing_X_p (inr (inr (inr (inr (inr (inr (inr (inl ((315)%Z, ([102; 111; 111], (false, tt))))))))))) = Some (Ok [127; 129; 128; 0; 7; 2; 2; 1; 59; 1; 1; 0]) /\
  test_id_len ser_skip_serializing_X_a ser_skip_serializing_X_d ser_skip_serializing_X_p (inr (inr (inr (inr (inr (inr (inr (inl ((315)%Z, ([102; 111; 111], (false, tt))))))))))) = Some (Ok (Some 4)) /\
  test_contents_len ser_skip_serializing_X_a ser_skip_serializing_X_d ser_skip_serializing_X_p (inr (inr (inr (inr (inr (inr (inr (inl ((315)%Z, ([102; 111; 111], (false, tt))))))))))) = Some (Ok (Some 7)).
Proof. conforms. Qed.

(** tests/ser/into_field.rs *)
Definition ser_into_field_A_T : list Type := [Z : Type].
Definition ser_into_field_A_d : data := DStruct ser_into_field_A_T (fld [Some [TIdent "into"; TPunct "="; TLiteral """i32"""]] (int_n I32) 1, tt).
Definition ser_into_field_A_a : list syn_attribute := [].
Definition ser_into_field_A_p : paths (value ser_into_field_A_d) := no_paths _.
Definition ser_into_field_B_T : list Type := [Z : Type; Z : Type].
Definition ser_into_field_B_d : data := DStruct ser_into_field_B_T (fld [Some [TIdent "into"; TPunct "="; TLiteral """i32"""]] (int_n I32) 1, (fld [] (int_n I8) 2, tt)).
Definition ser_into_field_B_a : list syn_attribute := [Some [TIdent "id"; TPunct "="; TIdent "Set"]].
Definition ser_into_field_B_p : paths (value ser_into_field_B_d) := no_paths _.
Definition ser_into_field_C_T : list Type := [Z : Type].
Definition ser_into_field_C_d : data := DStruct ser_into_field_C_T (fld [Some [TIdent "into"; TPunct "="; TLiteral """i32"""]] (int_n I32) 1, tt).
Definition ser_into_field_C_a : list syn_attribute := [Some [TIdent "id"; TPunct "="; TIdent "Boolean"]].
Definition ser_into_field_C_p : paths (value ser_into_field_C_d) := no_paths _.
Definition ser_into_field_D_T : list Type := [Z : Type; Z : Type].
Definition ser_into_field_D_d : data := DStruct ser_into_field_D_T (fld [] (int_n I8) 1, (fld [Some [TIdent "into"; TPunct "="; TLiteral """i32"""]] (int_n I32) 2, tt)).
Definition ser_into_field_D_a : list syn_attribute := [Some [TIdent "id"; TPunct "="; TIdent "Null"]].
Definition ser_into_field_D_p : paths (value ser_into_field_D_d) := no_paths _.
Definition ser_into_field_X_T : list (list Type) := [[Z : Type]; [Z : Type; Z : Type]; [Z : Type]; [Z : Type; Z : Type]].
Definition ser_into_field_X_d : data := DEnum ser_into_field_X_T ({| vd_attrs := []; vd_fields := (fld [Some [TIdent "into"; TPunct "="; TLiteral """i32"""]] (int_n I32) 1, tt) : hlist field_decl [Z : Type] |}, ({| vd_attrs := [Some [TIdent "id"; TPunct "="; TIdent "Set"]]; vd_fields := (fld [Some [TIdent "into"; TPunct "="; TLiteral """i32"""]] (int_n I32) 1, (fld [] (int_n I8) 2, tt)) : hlist field_decl [Z : Type; Z : Type] |}, ({| vd_attrs := [Some [TIdent "id"; TPunct "="; TIdent "Boolean"]]; vd_fields := (fld [Some [TIdent "into"; TPunct "="; TLiteral """i32"""]] (int_n I32) 1, tt) : hlist field_decl [Z : Type] |}, ({| vd_attrs := [Some [TIdent "id"; TPunct "="; TIdent "Null"]]; vd_fields := (fld [] (int_n I8) 1, (fld [Some [TIdent "into"; TPunct "="; TLiteral """i32"""]] (int_n I32) 2, tt)) : hlist field_decl [Z : Type; Z : Type] |}, tt)))).
Definition ser_into_field_X_a : list syn_attribute := [].
Definition ser_into_field_X_p : paths (value ser_into_field_X_d) := no_paths _.
(** line 81 *)
Example ser_into_field_test_a : test_der ser_into_field_A_a ser_into_field_A_d ser_into_field_A_p ((123)%Z, tt) = Some (Ok [48; 3; 2; 1; 123]) /\
  test_id_len ser_into_field_A_a ser_into_field_A_d ser_into_field_A_p ((123)%Z, tt) = Some (Ok (Some 1)).
Proof. conforms. Qed.
(** line 100 *)
Example ser_into_field_test_b : test_der ser_into_field_B_a ser_into_field_B_d ser_into_field_B_p ((123)%Z, ((-4)%Z, tt)) = Some (Ok [49; 6; 2; 1; 123; 2; 1; 252]) /\
  test_id_len ser_into_field_B_a ser_into_field_B_d ser_into_field_B_p ((123)%Z, ((-4)%Z, tt)) = Some (Ok (Some 1)).
Proof. conforms. Qed.
(** line 121 *)
Example ser_into_field_test_c : test_der ser_into_field_C_a ser_into_field_C_d ser_into_field_C_p ((123)%Z, tt) = Some (Ok [1; 3; 2; 1; 123]) /\
  test_id_len ser_into_field_C_a ser_into_field_C_d ser_into_field_C_p ((123)%Z, tt) = Some (Ok (Some 1)).
Proof. conforms. Qed.
(** line 138 *)
Example ser_into_field_test_d : test_der ser_into_field_D_a ser_into_field_D_d ser_into_field_D_p ((-4)%Z, ((123)%Z, tt)) = Some (Ok [5; 6; 2; 1; 252; 2; 1; 123]) /\
  test_id_len ser_into_field_D_a ser_into_field_D_d ser_into_field_D_p ((-4)%Z, ((123)%Z, tt)) = Some (Ok (Some 1)).
Proof. conforms. Qed.
(** line 156 *)
Example ser_into_field_test_xa : test_der ser_into_field_X_a ser_into_field_X_d ser_into_field_X_p (inl ((123)%Z, tt)) = Some (Ok [48; 3; 2; 1; 123]) /\
  test_id_len ser_into_field_X_a ser_into_field_X_d ser_into_field_X_p (inl ((123)%Z, tt)) = Some (Ok (Some 1)).
Proof. conforms. Qed.
(** line 175 *)
Example ser_into_field_test_xb : test_der ser_into_field_X_a ser_into_field_X_d ser_into_field_X_p (inr (inl ((123)%Z, ((-4)%Z, tt)))) = Some (Ok [49; 6; 2; 1; 123; 2; 1; 252]) /\
  test_id_len ser_into_field_X_a ser_into_field_X_d ser_into_field_X_p (inr (inl ((123)%Z, ((-4)%Z, tt)))) = Some (Ok (Some 1)).
Proof. conforms. Qed.
(** line 196 *)
Example ser_into_field_test_xc : test_der ser_into_field_X_a ser_into_field_X_d ser_into_field_X_p (inr (inr (inl ((123)%Z, tt)))) = Some (Ok [1; 3; 2; 1; 123]) /\
  test_id_len ser_into_field_X_a ser_into_field_X_d ser_into_field_X_p (inr (inr (inl ((123)%Z, tt)))) = Some (Ok (Some 1)).
Proof. conforms. Qed.
(** line 213 *)
Example ser_into_field_test_xd : test_der ser_into_field_X_a ser_into_field_X_d ser_into_field_X_p (inr (inr (inr (inl ((-4)%Z, ((123)%Z, tt)))))) = Some (Ok [5; 6; 2; 1; 252; 2; 1; 123]) /\
  test_id_len ser_into_field_X_a ser_into_field_X_d ser_into_field_X_p (inr (inr (inr (inl ((-4)%Z, ((123)%Z, tt)))))) = Some (Ok (Some 1)).
Proof. conforms. Qed.

(** tests/ser/to_field.rs *)
Definition ser_to_field_A_T : list Type := [list N : Type].
Definition ser_to_field_A_d : data := DStruct ser_to_field_A_T (fld [Some [TIdent "to"; TPunct "="; TLiteral """OctetString::new"""]] (bytes_n) 1, tt).
Definition ser_to_field_A_a : list syn_attribute := [].
Definition ser_to_field_A_p : paths (value ser_to_field_A_d) := no_paths _.
Definition ser_to_field_B_T : list Type := [list N : Type; Z : Type].
Definition ser_to_field_B_d : data := DStruct ser_to_field_B_T (fld [Some [TIdent "to"; TPunct "="; TLiteral """OctetString::new"""]] (bytes_n) 1, (fld [] (int_n I8) 2, tt)).
Definition ser_to_field_B_a : list syn_attribute := [Some [TIdent "id"; TPunct "="; TIdent "Set"]].
Definition ser_to_field_B_p : paths (value ser_to_field_B_d) := no_paths _.
Definition ser_to_field_C_T : list Type := [list N : Type].
Definition ser_to_field_C_d : data := DStruct ser_to_field_C_T (fld [Some [TIdent "to"; TPunct "="; TLiteral """OctetString::new"""]] (bytes_n) 1, tt).
Definition ser_to_field_C_a : list syn_attribute := [Some [TIdent "id"; TPunct "="; TIdent "Boolean"]].
Definition ser_to_field_C_p : paths (value ser_to_field_C_d) := no_paths _.
Definition ser_to_field_D_T : list Type := [Z : Type; list N : Type].
Definition ser_to_field_D_d : data := DStruct ser_to_field_D_T (fld [] (int_n I8) 1, (fld [Some [TIdent "to"; TPunct "="; TLiteral """OctetString::new"""]] (bytes_n) 2, tt)).
Definition ser_to_field_D_a : list syn_attribute := [Some [TIdent "id"; TPunct "="; TIdent "Null"]].
Definition ser_to_field_D_p : paths (value ser_to_field_D_d) := no_paths _.
Definition ser_to_field_X_T : list (list Type) := [[list N : Type]; [list N : Type; Z : Type]; [list N : Type]; [Z : Type; list N : Type]].
Definition ser_to_field_X_d : data := DEnum ser_to_field_X_T ({| vd_attrs := []; vd_fields := (fld [Some [TIdent "to"; TPunct "="; TLiteral """OctetString::new"""]] (bytes_n) 1, tt) : hlist field_decl [list N : Type] |}, ({| vd_attrs := [Some [TIdent "id"; TPunct "="; TIdent "Set"]]; vd_fields := (fld [Some [TIdent "to"; TPunct "="; TLiteral """OctetString::new"""]] (bytes_n) 1, (fld [] (int_n I8) 2, tt)) : hlist field_decl [list N : Type; Z : Type] |}, ({| vd_attrs := [Some [TIdent "id"; TPunct "="; TIdent "Boolean"]]; vd_fields := (fld [Some [TIdent "to"; TPunct "="; TLiteral """OctetString::new"""]] (bytes_n) 1, tt) : hlist field_decl [list N : Type] |}, ({| vd_attrs := [Some [TIdent "id"; TPunct "="; TIdent "Null"]]; vd_fields := (fld [] (int_n I8) 1, (fld [Some [TIdent "to"; TPunct "="; TLiteral """OctetString::new"""]] (bytes_n) 2, tt)) : hlist field_decl [Z : Type; list N : Type] |}, tt)))).
Definition ser_to_field_X_a : list syn_attribute := [].
Definition ser_to_field_X_p : paths (value ser_to_field_X_d) := no_paths _.
(** line 80 *)
Example ser_to_field_test_a : test_der ser_to_field_A_a ser_to_field_A_d ser_to_field_A_p ([], tt) = Some (Ok [48; 2; 4; 0]) /\
  test_id_len ser_to_field_A_a ser_to_field_A_d ser_to_field_A_p ([], tt) = Some (Ok (Some 1)).
Proof. conforms. Qed.
(** line 103 *)
Example ser_to_field_test_b : test_der ser_to_field_B_a ser_to_field_B_d ser_to_field_B_p ([1; 2; 3], ((-4)%Z, tt)) = Some (Ok [49; 8; 4; 3; 1; 2; 3; 2; 1; 252]) /\
  test_id_len ser_to_field_B_a ser_to_field_B_d ser_to_field_B_p ([1; 2; 3], ((-4)%Z, tt)) = Some (Ok (Some 1)).
Proof. conforms. Qed.
(** line 128 *)
Example ser_to_field_test_c : test_der ser_to_field_C_a ser_to_field_C_d ser_to_field_C_p ([1; 2; 3; 4; 5], tt) = Some (Ok [1; 7; 4; 5; 1; 2; 3; 4; 5]) /\
  test_id_len ser_to_field_C_a ser_to_field_C_d ser_to_field_C_p ([1; 2; 3; 4; 5], tt) = Some (Ok (Some 1)).
Proof. conforms. Qed.
(** line 149 *)
Example ser_to_field_test_d : test_der ser_to_field_D_a ser_to_field_D_d ser_to_field_D_p ((-4)%Z, ([1; 2; 3; 4; 5; 6; 7], tt)) = Some (Ok [5; 12; 2; 1; 252; 4; 7; 1; 2; 3; 4; 5; 6; 7]) /\
  test_id_len ser_to_field_D_a ser_to_field_D_d ser_to_field_D_p ((-4)%Z, ([1; 2; 3; 4; 5; 6; 7], tt)) = Some (Ok (Some 1)).
Proof. conforms. Qed.
(** line 171 *)
Example ser_to_field_test_xa : test_der ser_to_field_X_a ser_to_field_X_d ser_to_field_X_p (inl ([1; 2; 3; 4; 5; 6; 7; 8], tt)) = Some (Ok [48; 10; 4; 8; 1; 2; 3; 4; 5; 6; 7; 8]) /\
  test_id_len ser_to_field_X_a ser_to_field_X_d ser_to_field_X_p (inl ([1; 2; 3; 4; 5; 6; 7; 8], tt)) = Some (Ok (Some 1)).
Proof. conforms. Qed.
(** line 194 *)
Example ser_to_field_test_xb : test_der ser_to_field_X_a ser_to_field_X_d ser_to_field_X_p (inr (inl ([1; 2; 3; 4; 5; 6; 7; 8; 9], ((-4)%Z, tt)))) = Some (Ok [49; 14; 4; 9; 1; 2; 3; 4; 5; 6; 7; 8; 9; 2; 1; 252]) /\
  test_id_len ser_to_field_X_a ser_to_field_X_d ser_to_field_X_p (inr (inl ([1; 2; 3; 4; 5; 6; 7; 8; 9], ((-4)%Z, tt)))) = Some (Ok (Some 1)).
Proof. conforms. Qed.
(** line 219 *)
Example ser_to_field_test_xc : test_der ser_to_field_X_a ser_to_field_X_d ser_to_field_X_p (inr (inr (inl ([1; 2; 3; 4; 5; 6; 7; 8; 9; 0], tt)))) = Some (Ok [1; 12; 4; 10; 1; 2; 3; 4; 5; 6; 7; 8; 9; 0]) /\
  test_id_len ser_to_field_X_a ser_to_field_X_d ser_to_field_X_p (inr (inr (inl ([1; 2; 3; 4; 5; 6; 7; 8; 9; 0], tt)))) = Some (Ok (Some 1)).
Proof. conforms. Qed.
(** line 240 *)
Example ser_to_field_test_xd : test_der ser_to_field_X_a ser_to_field_X_d ser_to_field_X_p (inr (inr (inr (inl ((-4)%Z, ([1; 2; 3; 4; 5; 6; 7; 8; 9; 0; 1], tt)))))) = Some (Ok [5; 16; 2; 1; 252; 4; 11; 1; 2; 3; 4; 5; 6; 7; 8; 9; 0; 1]) /\
  test_id_len ser_to_field_X_a ser_to_field_X_d ser_to_field_X_p (inr (inr (inr (inl ((-4)%Z, ([1; 2; 3; 4; 5; 6; 7; 8; 9; 0; 1], tt)))))) = Some (Ok (Some 1)).
Proof. conforms. Qed.

(** tests/ser/transparent.rs *)
Definition ser_transparent_A_T : list Type := [list N : Type].
Definition ser_transparent_A_d : data := DStruct ser_transparent_A_T (fld [] (bytes_n) 1, tt).
Definition ser_transparent_A_a : list syn_attribute := [Some [TIdent "transparent"]].
Definition ser_transparent_A_p : paths (value ser_transparent_A_d) := no_paths _.
Definition ser_transparent_B_T : list Type := [list N : Type].
Definition ser_transparent_B_d : data := DStruct ser_transparent_B_T (fld [] (string_n) 1, tt).
Definition ser_transparent_B_a : list syn_attribute := [Some [TIdent "transparent"]].
Definition ser_transparent_B_p : paths (value ser_transparent_B_d) := no_paths _.
Definition ser_transparent_C_T : list Type := [list N : Type; Z : Type].
Definition ser_transparent_C_d : data := DStruct ser_transparent_C_T (fld [Some [TIdent "into"; TPunct "="; TLiteral """OctetString"""]] (string_n) 1, (fld [Some [TIdent "skip"]] (int_n U8) 2, tt)).
Definition ser_transparent_C_a : list syn_attribute := [Some [TIdent "transparent"]].
Definition ser_transparent_C_p : paths (value ser_transparent_C_d) := no_paths _.
Definition ser_transparent_D_T : list Type := [list N : Type; list N : Type].
Definition ser_transparent_D_d : data := DStruct ser_transparent_D_T (fld [Some [TIdent "into"; TPunct "="; TLiteral """OctetString"""]] (bytes_n) 1, (fld [Some [TIdent "skip"]] (bytes_n) 2, tt)).
Definition ser_transparent_D_a : list syn_attribute := [Some [TIdent "transparent"]].
Definition ser_transparent_D_p : paths (value ser_transparent_D_d) := no_paths _.
Definition ser_transparent_E_T : list Type := [Z : Type; list N : Type].
Definition ser_transparent_E_d : data := DStruct ser_transparent_E_T (fld [Some [TIdent "skip_serializing"]] (int_n I32) 1, (fld [Some [TIdent "to"; TPunct "="; TLiteral """OctetString::new"""]] (string_n) 2, tt)).
Definition ser_transparent_E_a : list syn_attribute := [Some [TIdent "transparent"]].
Definition ser_transparent_E_p : paths (value ser_transparent_E_d) := no_paths _.
Definition ser_transparent_F_T : list Type := [list N : Type; list N : Type].
Definition ser_transparent_F_d : data := DStruct ser_transparent_F_T (fld [Some [TIdent "skip_serializing"]] (string_n) 1, (fld [Some [TIdent "to"; TPunct "="; TLiteral """OctetString::new"""]] (bytes_n) 2, tt)).
Definition ser_transparent_F_a : list syn_attribute := [Some [TIdent "transparent"]].
Definition ser_transparent_F_p : paths (value ser_transparent_F_d) := no_paths _.
(** line 71 *)
Example ser_transparent_test_a : test_der ser_transparent_A_a ser_transparent_A_d ser_transparent_A_p ([1; 2; 3], tt) = Some (Ok [48; 9; 2; 1; 1; 2; 1; 2; 2; 1; 3]) /\
  test_id_len ser_transparent_A_a ser_transparent_A_d ser_transparent_A_p ([1; 2; 3], tt) = Some (Ok (Some 1)) /\
  test_contents_len ser_transparent_A_a ser_transparent_A_d ser_transparent_A_p ([1; 2; 3], tt) = Some (Ok (Some 9)).
Proof. conforms. Qed.
(** line 86 *)
Example ser_transparent_test_b : test_der ser_transparent_B_a ser_transparent_B_d ser_transparent_B_p ([97; 98; 99], tt) = Some (Ok [12; 3; 97; 98; 99]) /\
  test_id_len ser_transparent_B_a ser_transparent_B_d ser_transparent_B_p ([97; 98; 99], tt) = Some (Ok (Some 1)) /\
  test_contents_len ser_transparent_B_a ser_transparent_B_d ser_transparent_B_p ([97; 98; 99], tt) = Some (Ok (Some 3)).
Proof. conforms. Qed.
(** line 101 *)
Example ser_transparent_test_c : test_der ser_transparent_C_a ser_transparent_C_d ser_transparent_C_p ([97; 98; 99], ((18)%Z, tt)) = Some (Ok [4; 3; 97; 98; 99]) /\
  test_id_len ser_transparent_C_a ser_transparent_C_d ser_transparent_C_p ([97; 98; 99], ((18)%Z, tt)) = Some (Ok None) /\
  test_contents_len ser_transparent_C_a ser_transparent_C_d ser_transparent_C_p ([97; 98; 99], ((18)%Z, tt)) = Some (Ok None).
Proof. conforms. Qed.
(** line 117 *)
Example ser_transparent_test_d : test_der ser_transparent_D_a ser_transparent_D_d ser_transparent_D_p ([1; 2; 3], ([97; 98; 99], tt)) = Some (Ok [4; 3; 1; 2; 3]) /\
  test_id_len ser_transparent_D_a ser_transparent_D_d ser_transparent_D_p ([1; 2; 3], ([97; 98; 99], tt)) = Some (Ok None) /\
  test_contents_len ser_transparent_D_a ser_transparent_D_d ser_transparent_D_p ([1; 2; 3], ([97; 98; 99], tt)) = Some (Ok None).
Proof. conforms. Qed.
(** line 129 *)
Example ser_transparent_test_e : test_der ser_transparent_E_a ser_transparent_E_d ser_transparent_E_p ((-4660)%Z, ([97; 98; 99], tt)) = Some (Ok [4; 3; 97; 98; 99]) /\
  test_id_len ser_transparent_E_a ser_transparent_E_d ser_transparent_E_p ((-4660)%Z, ([97; 98; 99], tt)) = Some (Ok None) /\
  test_contents_len ser_transparent_E_a ser_transparent_E_d ser_transparent_E_p ((-4660)%Z, ([97; 98; 99], tt)) = Some (Ok None).
Proof. conforms. Qed.
(** line 145 *)
Example ser_transparent_test_f : test_der ser_transparent_F_a ser_transparent_F_d ser_transparent_F_p ([], ([1; 2; 3], tt)) = Some (Ok [4; 3; 1; 2; 3]) /\
  test_id_len ser_transparent_F_a ser_transparent_F_d ser_transparent_F_p ([], ([1; 2; 3], tt)) = Some (Ok None) /\
  test_contents_len ser_transparent_F_a ser_transparent_F_d ser_transparent_F_p ([], ([1; 2; 3], tt)) = Some (Ok None).
Proof. conforms. Qed.

(** tests/ser/non_length.rs *)
Definition ser_non_length_A_T : list Type := [Z : Type].
Definition ser_non_length_A_d : data := DStruct ser_non_length_A_T (fld [] (len_n (no_contents_len (ser_int I64))) 1, tt).
Definition ser_non_length_A_a : list syn_attribute := [].
Definition ser_non_length_A_p : paths (value ser_non_length_A_d) := no_paths _.
Definition ser_non_length_B_T : list Type := [Z : Type].
Definition ser_non_length_B_d : data := DStruct ser_non_length_B_T (fld [] (len_n (no_contents_len (ser_int I64))) 1, tt).
Definition ser_non_length_B_a : list syn_attribute := [Some [TIdent "transparent"]].
Definition ser_non_length_B_p : paths (value ser_non_length_B_d) := no_paths _.
Definition ser_non_length_C_T : list Type := [Z : Type].
Definition ser_non_length_C_d : data := DStruct ser_non_length_C_T (fld [Some [TIdent "to"; TPunct "="; TLiteral """NoneDerContentsLen::to_string"""]] (len_n (no_contents_len (ser_int I64))) 1, tt).
Definition ser_non_length_C_a : list syn_attribute := [Some [TIdent "transparent"]].
Definition ser_non_length_C_p : paths (value ser_non_length_C_d) := no_paths _.
Definition ser_non_length_D_T : list Type := [Z : Type].
Definition ser_non_length_D_d : data := DStruct ser_non_length_D_T (fld [Some [TIdent "into"; TPunct "="; TLiteral """String"""]] (len_n (no_contents_len (ser_int I64))) 1, tt).
Definition ser_non_length_D_a : list syn_attribute := [Some [TIdent "id"; TPunct "="; TIdent "Set"]].
Definition ser_non_length_D_p : paths (value ser_non_length_D_d) := no_paths _.
Definition ser_non_length_E_T : list Type := [Z : Type].
Definition ser_non_length_E_d : data := DStruct ser_non_length_E_T (fld [] (len_n (no_id_len (ser_int I64))) 1, tt).
Definition ser_non_length_E_a : list syn_attribute := [Some [TIdent "transparent"]].
Definition ser_non_length_E_p : paths (value ser_non_length_E_d) := no_paths _.
Definition ser_non_length_F_T : list Type := [Z : Type].
Definition ser_non_length_F_d : data := DStruct ser_non_length_F_T (fld [] (len_n (no_id_len (ser_int I64))) 1, tt).
Definition ser_non_length_F_a : list syn_attribute := [].
Definition ser_non_length_F_p : paths (value ser_non_length_F_d) := no_paths _.
Definition ser_non_length_G_T : list Type := [Z : Type].
Definition ser_non_length_G_d : data := DStruct ser_non_length_G_T (fld [Some [TIdent "into"; TPunct "="; TLiteral """String"""]] (len_n (no_id_len (ser_int I64))) 1, tt).
Definition ser_non_length_G_a : list syn_attribute := [Some [TIdent "id"; TPunct "="; TIdent "Set"]].
Definition ser_non_length_G_p : paths (value ser_non_length_G_d) := no_paths _.
Definition ser_non_length_H_T : list Type := [Z : Type].
Definition ser_non_length_H_d : data := DStruct ser_non_length_H_T (fld [Some [TIdent "to"; TPunct "="; TLiteral """NoneIdLen::to_string"""]] (len_n (no_id_len (ser_int I64))) 1, tt).
Definition ser_non_length_H_a : list syn_attribute := [Some [TIdent "transparent"]].
Definition ser_non_length_H_p : paths (value ser_non_length_H_d) := no_paths _.
Definition ser_non_length_I_T : list Type := [Z : Type].
Definition ser_non_length_I_d : data := DStruct ser_non_length_I_T (fld [] (len_n (no_id_len (no_contents_len (ser_int I64)))) 1, tt).
Definition ser_non_length_I_a : list syn_attribute := [Some [TIdent "transparent"]].
Definition ser_non_length_I_p : paths (value ser_non_length_I_d) := no_paths _.
Definition ser_non_length_J_T : list Type := [Z : Type].
Definition ser_non_length_J_d : data := DStruct ser_non_length_J_T (fld [] (len_n (no_id_len (no_contents_len (ser_int I64)))) 1, tt).
Definition ser_non_length_J_a : list syn_attribute := [Some [TIdent "transparent"]].
Definition ser_non_length_J_p : paths (value ser_non_length_J_d) := no_paths _.
Definition ser_non_length_K_T : list Type := [Z : Type].
Definition ser_non_length_K_d : data := DStruct ser_non_length_K_T (fld [Some [TIdent "into"; TPunct "="; TLiteral """String"""]] (len_n (no_id_len (no_contents_len (ser_int I64)))) 1, tt).
Definition ser_non_length_K_a : list syn_attribute := [Some [TIdent "id"; TPunct "="; TIdent "Set"]].
Definition ser_non_length_K_p : paths (value ser_non_length_K_d) := no_paths _.
Definition ser_non_length_Y_T : list Type := [Z : Type; Z : Type; Z : Type].
Definition ser_non_length_Y_d : data := DStruct ser_non_length_Y_T (fld [Some [TIdent "into"; TPunct "="; TLiteral """String"""]] (len_n (no_contents_len (ser_int I64))) 1, (fld [Some [TIdent "to"; TPunct "="; TLiteral """NoneIdLen::to_string"""]] (len_n (no_id_len (ser_int I64))) 2, (fld [] (len_n (no_id_len (no_contents_len (ser_int I64)))) 3, tt))).
Definition ser_non_length_Y_a : list syn_attribute := [Some [TIdent "id"; TPunct "="; TIdent "Set"]].
Definition ser_non_length_Y_p : paths (value ser_non_length_Y_d) := no_paths _.
Definition ser_non_length_Z_T : list Type := [Z : Type; Z : Type; Z : Type].
Definition ser_non_length_Z_d : data := DStruct ser_non_length_Z_T (fld [Some [TIdent "into"; TPunct "="; TLiteral """String"""]] (len_n (no_id_len (no_contents_len (ser_int I64)))) 1, (fld [] (len_n (no_contents_len (ser_int I64))) 2, (fld [] (len_n (no_id_len (ser_int I64))) 3, tt))).
Definition ser_non_length_Z_a : list syn_attribute := [].
Definition ser_non_length_Z_p : paths (value ser_non_length_Z_d) := no_paths _.
Definition ser_non_length_L_T : list Type := [Z : Type].
Definition ser_non_length_L_d : data := DStruct ser_non_length_L_T (fld [Some [TIdent "to"; TPunct "="; TLiteral """NoneBothLen::to_string"""]] (len_n (no_id_len (no_contents_len (ser_int I64)))) 1, tt).
Definition ser_non_length_L_a : list syn_attribute := [Some [TIdent "id"; TPunct "="; TIdent "Set"]].
Definition ser_non_length_L_p : paths (value ser_non_length_L_d) := no_paths _.
Definition ser_non_length_NoneLenEnum_T : list (list Type) := [[Z : Type]; [Z : Type]; [Z : Type]; [Z : Type]; [Z : Type]; [Z : Type]; [Z : Type]; [Z : Type]; [Z : Type]; [Z : Type]; [Z : Type]; [Z : Type]; [Z : Type; Z : Type; Z : Type]; [Z : Type; Z : Type; Z : Type]].
Definition ser_non_length_NoneLenEnum_d : data := DEnum ser_non_length_NoneLenEnum_T ({| vd_attrs := []; vd_fields := (fld [] (len_n (no_contents_len (ser_int I64))) 1, tt) : hlist field_decl [Z : Type] |}, ({| vd_attrs := []; vd_fields := (fld [] (len_n (no_contents_len (ser_int I64))) 1, tt) : hlist field_decl [Z : Type] |}, ({| vd_attrs := [Some [TIdent "id"; TPunct "="; TIdent "Set"]]; vd_fields := (fld [Some [TIdent "to"; TPunct "="; TLiteral """NoneDerContentsLen::to_string"""]] (len_n (no_contents_len (ser_int I64))) 1, tt) : hlist field_decl [Z : Type] |}, ({| vd_attrs := [Some [TIdent "id"; TPunct "="; TIdent "Set"]]; vd_fields := (fld [Some [TIdent "into"; TPunct "="; TLiteral """String"""]] (len_n (no_contents_len (ser_int I64))) 1, tt) : hlist field_decl [Z : Type] |}, ({| vd_attrs := [Some [TIdent "id"; TPunct "="; TIdent "Set"]]; vd_fields := (fld [] (len_n (no_id_len (ser_int I64))) 1, tt) : hlist field_decl [Z : Type] |}, ({| vd_attrs := [Some [TIdent "id"; TPunct "="; TIdent "Set"]]; vd_fields := (fld [] (len_n (no_id_len (ser_int I64))) 1, tt) : hlist field_decl [Z : Type] |}, ({| vd_attrs := []; vd_fields := (fld [Some [TIdent "into"; TPunct "="; TLiteral """String"""]] (len_n (no_id_len (ser_int I64))) 1, tt) : hlist field_decl [Z : Type] |}, ({| vd_attrs := []; vd_fields := (fld [Some [TIdent "to"; TPunct "="; TLiteral """NoneIdLen::to_string"""]] (len_n (no_id_len (ser_int I64))) 1, tt) : hlist field_decl [Z : Type] |}, ({| vd_attrs := [Some [TIdent "id"; TPunct "="; TIdent "Set"]]; vd_fields := (fld [] (len_n (no_id_len (no_contents_len (ser_int I64)))) 1, tt) : hlist field_decl [Z : Type] |}, ({| vd_attrs := []; vd_fields := (fld [] (len_n (no_id_len (no_contents_len (ser_int I64)))) 1, tt) : hlist field_decl [Z : Type] |}, ({| vd_attrs := []; vd_fields := (fld [Some [TIdent "into"; TPunct "="; TLiteral """String"""]] (len_n (no_id_len (no_contents_len (ser_int I64)))) 1, tt) : hlist field_decl [Z : Type] |}, ({| vd_attrs := [Some [TIdent "id"; TPunct "="; TIdent "Set"]]; vd_fields := (fld [Some [TIdent "to"; TPunct "="; TLiteral """NoneBothLen::to_string"""]] (len_n (no_id_len (no_contents_len (ser_int I64)))) 1, tt) : hlist field_decl [Z : Type] |}, ({| vd_attrs := []; vd_fields := (fld [Some [TIdent "into"; TPunct "="; TLiteral """String"""]] (len_n (no_id_len (ser_int I64))) 1, (fld [] (len_n (no_id_len (no_contents_len (ser_int I64)))) 2, (fld [] (len_n (no_contents_len (ser_int I64))) 3, tt))) : hlist field_decl [Z : Type; Z : Type; Z : Type] |}, ({| vd_attrs := [Some [TIdent "id"; TPunct "="; TIdent "Set"]]; vd_fields := (fld [] (len_n (no_contents_len (ser_int I64))) 1, (fld [Some [TIdent "into"; TPunct "="; TLiteral """String"""]] (len_n (no_id_len (ser_int I64))) 2, (fld [Some [TIdent "to"; TPunct "="; TLiteral """NoneBothLen::to_string"""]] (len_n (no_id_len (no_contents_len (ser_int I64)))) 3, tt))) : hlist field_decl [Z : Type; Z : Type; Z : Type] |}, tt)))))))))))))).
Definition ser_non_length_NoneLenEnum_a : list syn_attribute := [].
Definition ser_non_length_NoneLenEnum_p : paths (value ser_non_length_NoneLenEnum_d) := no_paths _.
(** line 299 *)
Example ser_non_length_test_a : test_der ser_non_length_A_a ser_non_length_A_d ser_non_length_A_p ((53)%Z, tt) = Some (Ok [48; 3; 2; 1; 53]).
Proof. conforms. Qed.
(** line 311 *)
Example ser_non_length_test_b : test_der ser_non_length_B_a ser_non_length_B_d ser_non_length_B_p ((-34)%Z, tt) = Some (Ok [2; 1; 222]).
Proof. conforms. Qed.
(** line 319 *)
Example ser_non_length_test_c : test_der ser_non_length_C_a ser_non_length_C_d ser_non_length_C_p ((0)%Z, tt) = Some (Ok [12; 1; 48]).
Proof. conforms. Qed.
(** line 327 *)
Example ser_non_length_test_d : test_der ser_non_length_D_a ser_non_length_D_d ser_non_length_D_p ((1)%Z, tt) = Some (Ok [49; 3; 12; 1; 49]).
Proof. conforms. Qed.
(** line 339 *)
Example ser_non_length_test_e : test_der ser_non_length_E_a ser_non_length_E_d ser_non_length_E_p ((53)%Z, tt) = Some (Ok [2; 1; 53]).
Proof. conforms. Qed.
(** line 347 *)
Example ser_non_length_test_f : test_der ser_non_length_F_a ser_non_length_F_d ser_non_length_F_p ((-34)%Z, tt) = Some (Ok [48; 3; 2; 1; 222]).
Proof. conforms. Qed.
(** line 359 *)
Example ser_non_length_test_g : test_der ser_non_length_G_a ser_non_length_G_d ser_non_length_G_p ((0)%Z, tt) = Some (Ok [49; 3; 12; 1; 48]).
Proof. conforms. Qed.
(** line 371 *)
Example ser_non_length_test_h : test_der ser_non_length_H_a ser_non_length_H_d ser_non_length_H_p ((1)%Z, tt) = Some (Ok [12; 1; 49]).
Proof. conforms. Qed.
(** line 379 *)
Example ser_non_length_test_i : test_der ser_non_length_I_a ser_non_length_I_d ser_non_length_I_p ((53)%Z, tt) = Some (Ok [2; 1; 53]).
Proof. conforms. Qed.
(** line 387 *)
Example ser_non_length_test_j : test_der ser_non_length_J_a ser_non_length_J_d ser_non_length_J_p ((-34)%Z, tt) = Some (Ok [2; 1; 222]).
Proof. conforms. Qed.
(** line 395 *)
Example ser_non_length_test_k : test_der ser_non_length_K_a ser_non_length_K_d ser_non_length_K_p ((0)%Z, tt) = Some (Ok [49; 3; 12; 1; 48]).
Proof. conforms. Qed.
(** line 407 *)
Example ser_non_length_test_l : test_der ser_non_length_L_a ser_non_length_L_d ser_non_length_L_p ((1)%Z, tt) = Some (Ok [49; 3; 12; 1; 49]).
Proof. conforms. Qed.
(** line 419 *)
Example ser_non_length_test_y : test_der ser_non_length_Y_a ser_non_length_Y_d ser_non_length_Y_p ((-9223372036854775808)%Z, ((-9223372036854775808)%Z, ((-9223372036854775808)%Z, tt))) = Some (Ok [49; 54; 12; 20; 45; 57; 50; 50; 51; 51; 55; 50; 48; 51; 54; 56; 53; 52; 55; 55; 53; 56; 48; 56; 12; 20; 45; 57; 50; 50; 51; 51; 55; 50; 48; 51; 54; 56; 53; 52; 55; 55; 53; 56; 48; 56; 2; 8; 128; 0; 0; 0; 0; 0; 0; 0]).
Proof. conforms. Qed.
(** line 446 *)
Example ser_non_length_test_z : test_der ser_non_length_Z_a ser_non_length_Z_d ser_non_length_Z_p ((9223372036854775807)%Z, ((9223372036854775807)%Z, ((9223372036854775807)%Z, tt))) = Some (Ok [48; 41; 12; 19; 57; 50; 50; 51; 51; 55; 50; 48; 51; 54; 56; 53; 52; 55; 55; 53; 56; 48; 55; 2; 8; 127; 255; 255; 255; 255; 255; 255; 255; 2; 8; 127; 255; 255; 255; 255; 255; 255; 255]).
Proof. conforms. Qed.
(** line 469 *)
Example ser_non_length_test_xa : test_der ser_non_length_NoneLenEnum_a ser_non_length_NoneLenEnum_d ser_non_length_NoneLenEnum_p (inl ((53)%Z, tt)) = Some (Ok [48; 3; 2; 1; 53]).
Proof. conforms. Qed.
(** line 481 *)
Example ser_non_length_test_xb : test_der ser_non_length_NoneLenEnum_a ser_non_length_NoneLenEnum_d ser_non_length_NoneLenEnum_p (inr (inl ((-34)%Z, tt))) = Some (Ok [48; 3; 2; 1; 222]).
Proof. conforms. Qed.
(** line 493 *)
Example ser_non_length_test_xc : test_der ser_non_length_NoneLenEnum_a ser_non_length_NoneLenEnum_d ser_non_length_NoneLenEnum_p (inr (inr (inl ((0)%Z, tt)))) = Some (Ok [49; 3; 12; 1; 48]).
Proof. conforms. Qed.
(** line 505 *)
Example ser_non_length_test_xd : test_der ser_non_length_NoneLenEnum_a ser_non_length_NoneLenEnum_d ser_non_length_NoneLenEnum_p (inr (inr (inr (inl ((1)%Z, tt))))) = Some (Ok [49; 3; 12; 1; 49]).
Proof. conforms. Qed.
(** line 517 *)
Example ser_non_length_test_xe : test_der ser_non_length_NoneLenEnum_a ser_non_length_NoneLenEnum_d ser_non_length_NoneLenEnum_p (inr (inr (inr (inr (inl ((53)%Z, tt)))))) = Some (Ok [49; 3; 2; 1; 53]).
Proof. conforms. Qed.
(** line 529 *)
Example ser_non_length_test_xf : test_der ser_non_length_NoneLenEnum_a ser_non_length_NoneLenEnum_d ser_non_length_NoneLenEnum_p (inr (inr (inr (inr (inr (inl ((-34)%Z, tt))))))) = Some (Ok [49; 3; 2; 1; 222]).
Proof. conforms. Qed.
(** line 541 *)
Example ser_non_length_test_xg : test_der ser_non_length_NoneLenEnum_a ser_non_length_NoneLenEnum_d ser_non_length_NoneLenEnum_p (inr (inr (inr (inr (inr (inr (inl ((0)%Z, tt)))))))) = Some (Ok [48; 3; 12; 1; 48]).
Proof. conforms. Qed.
(** line 553 *)
Example ser_non_length_test_xh : test_der ser_non_length_NoneLenEnum_a ser_non_length_NoneLenEnum_d ser_non_length_NoneLenEnum_p (inr (inr (inr (inr (inr (inr (inr (inl ((1)%Z, tt))))))))) = Some (Ok [48; 3; 12; 1; 49]).
Proof. conforms. Qed.
(** line 565 *)
Example ser_non_length_test_xi : test_der ser_non_length_NoneLenEnum_a ser_non_length_NoneLenEnum_d ser_non_length_NoneLenEnum_p (inr (inr (inr (inr (inr (inr (inr (inr (inl ((53)%Z, tt)))))))))) = Some (Ok [49; 3; 2; 1; 53]).
Proof. conforms. Qed.
(** line 577 *)
Example ser_non_length_test_xj : test_der ser_non_length_NoneLenEnum_a ser_non_length_NoneLenEnum_d ser_non_length_NoneLenEnum_p (inr (inr (inr (inr (inr (inr (inr (inr (inr (inl ((-34)%Z, tt))))))))))) = Some (Ok [48; 3; 2; 1; 222]).
Proof. conforms. Qed.
(** line 589 *)
Example ser_non_length_test_xk : test_der ser_non_length_NoneLenEnum_a ser_non_length_NoneLenEnum_d ser_non_length_NoneLenEnum_p (inr (inr (inr (inr (inr (inr (inr (inr (inr (inr (inl ((0)%Z, tt)))))))))))) = Some (Ok [48; 3; 12; 1; 48]).
Proof. conforms. Qed.
(** line 601 *)
Example ser_non_length_test_xl : test_der ser_non_length_NoneLenEnum_a ser_non_length_NoneLenEnum_d ser_non_length_NoneLenEnum_p (inr (inr (inr (inr (inr (inr (inr (inr (inr (inr (inr (inl ((1)%Z, tt))))))))))))) = Some (Ok [49; 3; 12; 1; 49]).
Proof. conforms. Qed.
(** line 613 *)
Example ser_non_length_test_xy : test_der ser_non_length_NoneLenEnum_a ser_non_length_NoneLenEnum_d ser_non_length_NoneLenEnum_p (inr (inr (inr (inr (inr (inr (inr (inr (inr (inr (inr (inr (inl ((9223372036854775807)%Z, ((9223372036854775807)%Z, ((9223372036854775807)%Z, tt)))))))))))))))) = Some (Ok [48; 41; 12; 19; 57; 50; 50; 51; 51; 55; 50; 48; 51; 54; 56; 53; 52; 55; 55; 53; 56; 48; 55; 2; 8; 127; 255; 255; 255; 255; 255; 255; 255; 2; 8; 127; 255; 255; 255; 255; 255; 255; 255]).
Proof. conforms. Qed.
(** line 640 *)
Example ser_non_length_test_xz : test_der ser_non_length_NoneLenEnum_a ser_non_length_NoneLenEnum_d ser_non_length_NoneLenEnum_p (inr (inr (inr (inr (inr (inr (inr (inr (inr (inr (inr (inr (inr (inl ((-9223372036854775808)%Z, ((-9223372036854775808)%Z, ((-9223372036854775808)%Z, tt))))))))))))))))) = Some (Ok [49; 54; 2; 8; 128; 0; 0; 0; 0; 0; 0; 0; 12; 20; 45; 57; 50; 50; 51; 51; 55; 50; 48; 51; 54; 56; 53; 52; 55; 55; 53; 56; 48; 56; 12; 20; 45; 57; 50; 50; 51; 51; 55; 50; 48; 51; 54; 56; 53; 52; 55; 55; 53; 56; 48; 56]).
Proof. conforms. Qed.

(** tests/ser/generics.rs, with [C] = bool and [D] = i32 *)
Definition ser_generics_A_T : list Type := [list N : Type; list N : Type; bool : Type; Z : Type; list N : Type; list N : Type].
Definition ser_generics_A_d : data := DStruct ser_generics_A_T
  (fld [Some [TIdent "to"; TPunct "="; TLiteral """OctetString::new"""]] bytes_n 1, (fld [Some [TIdent "to"; TPunct "="; TLiteral """OctetString::new"""]] bytes_n 2, (fld [] bool_n 3, (fld [] (int_n I32) 4, (fld [Some [TIdent "to"; TPunct "="; TLiteral """OctetString::new"""]] bytes_n 5, (fld [Some [TIdent "to"; TPunct "="; TLiteral """OctetString::new"""]] bytes_n 6, tt)))))).
(** line 42 *)
Example ser_generics_test_a : test_der [] ser_generics_A_d (no_paths _)
  ([1; 2; 3], ([], (true, (53%Z, ([4; 5; 6; 7], ([8; 9], tt)))))) = Some (Ok [48; 23; 4; 3; 1; 2; 3; 4; 0; 1; 1; 255; 2; 1; 53; 4; 4; 4; 5; 6; 7; 4; 2; 8; 9]).
Proof. conforms. Qed.

(** tests/ser/into_struct.rs *)
Definition ser_into_struct_A_T : list Type := [list N : Type].
Definition ser_into_struct_A_d : data := DStruct ser_into_struct_A_T (fld [] (string_n) 1, tt).
Definition ser_into_struct_A_a : list syn_attribute := [Some [TIdent "into"; TPunct "="; TLiteral """String"""]].
Definition ser_into_struct_A_p : paths (value ser_into_struct_A_d) := via_paths (fst : value ser_into_struct_A_d -> _) ser_string.
Definition ser_into_struct_B_T : list Type := [Z : Type; list N : Type].
Definition ser_into_struct_B_d : data := DStruct ser_into_struct_B_T (fld [] (int_n I8) 1, (fld [] (string_n) 2, tt)).
Definition ser_into_struct_B_a : list syn_attribute := [Some [TIdent "into"; TPunct "="; TLiteral """String"""]].
Definition ser_into_struct_B_p : paths (value ser_into_struct_B_d) := via_paths ((fun v => fst (snd v)) : value ser_into_struct_B_d -> _) ser_string.
Definition ser_into_struct_C_T : list Type := [list N : Type].
Definition ser_into_struct_C_d : data := DStruct ser_into_struct_C_T (fld [] (string_n) 1, tt).
Definition ser_into_struct_C_a : list syn_attribute := [Some [TIdent "into"; TPunct "="; TLiteral """String"""]].
Definition ser_into_struct_C_p : paths (value ser_into_struct_C_d) := via_paths (fst : value ser_into_struct_C_d -> _) ser_string.
Definition ser_into_struct_D_T : list Type := [list N : Type; Z : Type].
Definition ser_into_struct_D_d : data := DStruct ser_into_struct_D_T (fld [] (string_n) 1, (fld [] (int_n I8) 2, tt)).
Definition ser_into_struct_D_a : list syn_attribute := [Some [TIdent "into"; TPunct "="; TLiteral """String"""]].
Definition ser_into_struct_D_p : paths (value ser_into_struct_D_d) := via_paths (fst : value ser_into_struct_D_d -> _) ser_string.
(** line 72 *)
Example ser_into_struct_test_a : test_der ser_into_struct_A_a ser_into_struct_A_d ser_into_struct_A_p ([105; 110; 110; 101; 114], tt) = Some (Ok [12; 5; 105; 110; 110; 101; 114]) /\
  test_id_len ser_into_struct_A_a ser_into_struct_A_d ser_into_struct_A_p ([105; 110; 110; 101; 114], tt) = Some (Ok None) /\
  test_contents_len ser_into_struct_A_a ser_into_struct_A_d ser_into_struct_A_p ([105; 110; 110; 101; 114], tt) = Some (Ok None).
Proof. conforms. Qed.
(** line 84 *)
Example ser_into_struct_test_b : test_der ser_into_struct_B_a ser_into_struct_B_d ser_into_struct_B_p ((10)%Z, ([105; 110; 110; 101; 114], tt)) = Some (Ok [12; 5; 105; 110; 110; 101; 114]) /\
  test_id_len ser_into_struct_B_a ser_into_struct_B_d ser_into_struct_B_p ((10)%Z, ([105; 110; 110; 101; 114], tt)) = Some (Ok None) /\
  test_contents_len ser_into_struct_B_a ser_into_struct_B_d ser_into_struct_B_p ((10)%Z, ([105; 110; 110; 101; 114], tt)) = Some (Ok None).
Proof. conforms. Qed.
(** line 97 *)
Example ser_into_struct_test_c : test_der ser_into_struct_C_a ser_into_struct_C_d ser_into_struct_C_p ([105; 110; 110; 101; 114], tt) = Some (Ok [12; 5; 105; 110; 110; 101; 114]) /\
  test_id_len ser_into_struct_C_a ser_into_struct_C_d ser_into_struct_C_p ([105; 110; 110; 101; 114], tt) = Some (Ok None) /\
  test_contents_len ser_into_struct_C_a ser_into_struct_C_d ser_into_struct_C_p ([105; 110; 110; 101; 114], tt) = Some (Ok None).
Proof. conforms. Qed.
(** line 107 *)
Example ser_into_struct_test_d : test_der ser_into_struct_D_a ser_into_struct_D_d ser_into_struct_D_p ([105; 110; 110; 101; 114], ((10)%Z, tt)) = Some (Ok [12; 5; 105; 110; 110; 101; 114]) /\
  test_id_len ser_into_struct_D_a ser_into_struct_D_d ser_into_struct_D_p ([105; 110; 110; 101; 114], ((10)%Z, tt)) = Some (Ok None) /\
  test_contents_len ser_into_struct_D_a ser_into_struct_D_d ser_into_struct_D_p ([105; 110; 110; 101; 114], ((10)%Z, tt)) = Some (Ok None).
Proof. conforms. Qed.

(** tests/ser/to_struct.rs *)
Definition ser_to_struct_A_T : list Type := [list N : Type].
Definition ser_to_struct_A_d : data := DStruct ser_to_struct_A_T (fld [] (string_n) 1, tt).
Definition ser_to_struct_A_a : list syn_attribute := [Some [TIdent "to"; TPunct "="; TLiteral """OctetString::new"""]].
Definition ser_to_struct_A_p : paths (value ser_to_struct_A_d) := via_paths (fst : value ser_to_struct_A_d -> _) ser_octets.
Definition ser_to_struct_B_T : list Type := [Z : Type; list N : Type].
Definition ser_to_struct_B_d : data := DStruct ser_to_struct_B_T (fld [] (int_n I8) 1, (fld [] (string_n) 2, tt)).
Definition ser_to_struct_B_a : list syn_attribute := [Some [TIdent "to"; TPunct "="; TLiteral """OctetString::new"""]].
Definition ser_to_struct_B_p : paths (value ser_to_struct_B_d) := via_paths ((fun v => fst (snd v)) : value ser_to_struct_B_d -> _) ser_octets.
Definition ser_to_struct_C_T : list Type := [list N : Type].
Definition ser_to_struct_C_d : data := DStruct ser_to_struct_C_T (fld [] (string_n) 1, tt).
Definition ser_to_struct_C_a : list syn_attribute := [Some [TIdent "to"; TPunct "="; TLiteral """OctetString::new"""]].
Definition ser_to_struct_C_p : paths (value ser_to_struct_C_d) := via_paths (fst : value ser_to_struct_C_d -> _) ser_octets.
Definition ser_to_struct_D_T : list Type := [list N : Type; Z : Type].
Definition ser_to_struct_D_d : data := DStruct ser_to_struct_D_T (fld [] (string_n) 1, (fld [] (int_n I8) 2, tt)).
Definition ser_to_struct_D_a : list syn_attribute := [Some [TIdent "to"; TPunct "="; TLiteral """OctetString::new"""]].
Definition ser_to_struct_D_p : paths (value ser_to_struct_D_d) := via_paths (fst : value ser_to_struct_D_d -> _) ser_octets.
(** line 72 *)
Example ser_to_struct_test_a : test_der ser_to_struct_A_a ser_to_struct_A_d ser_to_struct_A_p ([105; 110; 110; 101; 114], tt) = Some (Ok [4; 5; 105; 110; 110; 101; 114]) /\
  test_id_len ser_to_struct_A_a ser_to_struct_A_d ser_to_struct_A_p ([105; 110; 110; 101; 114], tt) = Some (Ok None) /\
  test_contents_len ser_to_struct_A_a ser_to_struct_A_d ser_to_struct_A_p ([105; 110; 110; 101; 114], tt) = Some (Ok None).
Proof. conforms. Qed.
(** line 84 *)
Example ser_to_struct_test_b : test_der ser_to_struct_B_a ser_to_struct_B_d ser_to_struct_B_p ((10)%Z, ([105; 110; 110; 101; 114], tt)) = Some (Ok [4; 5; 105; 110; 110; 101; 114]) /\
  test_id_len ser_to_struct_B_a ser_to_struct_B_d ser_to_struct_B_p ((10)%Z, ([105; 110; 110; 101; 114], tt)) = Some (Ok None) /\
  test_contents_len ser_to_struct_B_a ser_to_struct_B_d ser_to_struct_B_p ((10)%Z, ([105; 110; 110; 101; 114], tt)) = Some (Ok None).
Proof. conforms. Qed.
(** line 97 *)
Example ser_to_struct_test_c : test_der ser_to_struct_C_a ser_to_struct_C_d ser_to_struct_C_p ([105; 110; 110; 101; 114], tt) = Some (Ok [4; 5; 105; 110; 110; 101; 114]) /\
  test_id_len ser_to_struct_C_a ser_to_struct_C_d ser_to_struct_C_p ([105; 110; 110; 101; 114], tt) = Some (Ok None) /\
  test_contents_len ser_to_struct_C_a ser_to_struct_C_d ser_to_struct_C_p ([105; 110; 110; 101; 114], tt) = Some (Ok None).
Proof. conforms. Qed.
(** line 107 *)
Example ser_to_struct_test_d : test_der ser_to_struct_D_a ser_to_struct_D_d ser_to_struct_D_p ([105; 110; 110; 101; 114], ((10)%Z, tt)) = Some (Ok [4; 5; 105; 110; 110; 101; 114]) /\
  test_id_len ser_to_struct_D_a ser_to_struct_D_d ser_to_struct_D_p ([105; 110; 110; 101; 114], ((10)%Z, tt)) = Some (Ok None) /\
  test_contents_len ser_to_struct_D_a ser_to_struct_D_d ser_to_struct_D_p ([105; 110; 110; 101; 114], ((10)%Z, tt)) = Some (Ok None).
Proof. conforms. Qed.

(** tests/ser/into_enum.rs *)
Definition ser_into_enum_X_T : list (list Type) := [[Z : Type]; [Z : Type; Z : Type]; [Z : Type]; [Z : Type; Z : Type]].
Definition ser_into_enum_X_d : data := DEnum ser_into_enum_X_T ({| vd_attrs := []; vd_fields := (fld [] (int_n I32) 1, tt) : hlist field_decl [Z : Type] |}, ({| vd_attrs := []; vd_fields := (fld [] (int_n I32) 1, (fld [] (int_n I8) 2, tt)) : hlist field_decl [Z : Type; Z : Type] |}, ({| vd_attrs := []; vd_fields := (fld [] (int_n I32) 1, tt) : hlist field_decl [Z : Type] |}, ({| vd_attrs := []; vd_fields := (fld [] (int_n I8) 1, (fld [] (int_n I32) 2, tt)) : hlist field_decl [Z : Type; Z : Type] |}, tt)))).
Definition ser_into_enum_X_a : list syn_attribute := [Some [TIdent "into"; TPunct "="; TLiteral """i32"""]].
Definition ser_into_enum_X_p : paths (value ser_into_enum_X_d) := via_paths ((fun v => match v with inl a => fst a | inr (inl b) => fst b | inr (inr (inl c)) => fst c | inr (inr (inr (inl d))) => fst (snd d) | inr (inr (inr (inr e))) => match e with end end) : value ser_into_enum_X_d -> _) (ser_int I32).
(** line 47 *)
Example ser_into_enum_test_xa : test_der ser_into_enum_X_a ser_into_enum_X_d ser_into_enum_X_p (inl ((5)%Z, tt)) = Some (Ok [2; 1; 5]) /\
  test_id_len ser_into_enum_X_a ser_into_enum_X_d ser_into_enum_X_p (inl ((5)%Z, tt)) = Some (Ok None) /\
  test_contents_len ser_into_enum_X_a ser_into_enum_X_d ser_into_enum_X_p (inl ((5)%Z, tt)) = Some (Ok None).
Proof. conforms. Qed.
(** line 57 *)
Example ser_into_enum_test_xb : test_der ser_into_enum_X_a ser_into_enum_X_d ser_into_enum_X_p (inr (inl ((5)%Z, ((-2)%Z, tt)))) = Some (Ok [2; 1; 5]) /\
  test_id_len ser_into_enum_X_a ser_into_enum_X_d ser_into_enum_X_p (inr (inl ((5)%Z, ((-2)%Z, tt)))) = Some (Ok None) /\
  test_contents_len ser_into_enum_X_a ser_into_enum_X_d ser_into_enum_X_p (inr (inl ((5)%Z, ((-2)%Z, tt)))) = Some (Ok None).
Proof. conforms. Qed.
(** line 67 *)
Example ser_into_enum_test_xc : test_der ser_into_enum_X_a ser_into_enum_X_d ser_into_enum_X_p (inr (inr (inl ((5)%Z, tt)))) = Some (Ok [2; 1; 5]) /\
  test_id_len ser_into_enum_X_a ser_into_enum_X_d ser_into_enum_X_p (inr (inr (inl ((5)%Z, tt)))) = Some (Ok None) /\
  test_contents_len ser_into_enum_X_a ser_into_enum_X_d ser_into_enum_X_p (inr (inr (inl ((5)%Z, tt)))) = Some (Ok None).
Proof. conforms. Qed.
(** line 77 *)
Example ser_into_enum_test_xd : test_der ser_into_enum_X_a ser_into_enum_X_d ser_into_enum_X_p (inr (inr (inr (inl ((-2)%Z, ((5)%Z, tt)))))) = Some (Ok [2; 1; 5]) /\
  test_id_len ser_into_enum_X_a ser_into_enum_X_d ser_into_enum_X_p (inr (inr (inr (inl ((-2)%Z, ((5)%Z, tt)))))) = Some (Ok None) /\
  test_contents_len ser_into_enum_X_a ser_into_enum_X_d ser_into_enum_X_p (inr (inr (inr (inl ((-2)%Z, ((5)%Z, tt)))))) = Some (Ok None).
Proof. conforms. Qed.

(** tests/ser/to_enum.rs *)
Definition ser_to_enum_X_T : list (list Type) := [[list N : Type]; [list N : Type; Z : Type]; [list N : Type]; [Z : Type; list N : Type]].
Definition ser_to_enum_X_d : data := DEnum ser_to_enum_X_T ({| vd_attrs := []; vd_fields := (fld [] (bytes_n) 1, tt) : hlist field_decl [list N : Type] |}, ({| vd_attrs := []; vd_fields := (fld [] (bytes_n) 1, (fld [] (int_n I8) 2, tt)) : hlist field_decl [list N : Type; Z : Type] |}, ({| vd_attrs := []; vd_fields := (fld [] (bytes_n) 1, tt) : hlist field_decl [list N : Type] |}, ({| vd_attrs := []; vd_fields := (fld [] (int_n I8) 1, (fld [] (bytes_n) 2, tt)) : hlist field_decl [Z : Type; list N : Type] |}, tt)))).
Definition ser_to_enum_X_a : list syn_attribute := [Some [TIdent "to"; TPunct "="; TLiteral """OctetString::new"""]].
Definition ser_to_enum_X_p : paths (value ser_to_enum_X_d) := via_paths ((fun v => match v with inl a => fst a | inr (inl b) => fst b | inr (inr (inl c)) => fst c | inr (inr (inr (inl d))) => fst (snd d) | inr (inr (inr (inr e))) => match e with end end) : value ser_to_enum_X_d -> _) ser_octets.
(** line 48 *)
Example ser_to_enum_test_xa : test_der ser_to_enum_X_a ser_to_enum_X_d ser_to_enum_X_p (inl ([1; 2; 3], tt)) = Some (Ok [4; 3; 1; 2; 3]) /\
  test_id_len ser_to_enum_X_a ser_to_enum_X_d ser_to_enum_X_p (inl ([1; 2; 3], tt)) = Some (Ok None) /\
  test_contents_len ser_to_enum_X_a ser_to_enum_X_d ser_to_enum_X_p (inl ([1; 2; 3], tt)) = Some (Ok None).
Proof. conforms. Qed.
(** line 58 *)
Example ser_to_enum_test_xb : test_der ser_to_enum_X_a ser_to_enum_X_d ser_to_enum_X_p (inr (inl ([1; 2; 3], ((-2)%Z, tt)))) = Some (Ok [4; 3; 1; 2; 3]) /\
  test_id_len ser_to_enum_X_a ser_to_enum_X_d ser_to_enum_X_p (inr (inl ([1; 2; 3], ((-2)%Z, tt)))) = Some (Ok None) /\
  test_contents_len ser_to_enum_X_a ser_to_enum_X_d ser_to_enum_X_p (inr (inl ([1; 2; 3], ((-2)%Z, tt)))) = Some (Ok None).
Proof. conforms. Qed.
(** line 71 *)
Example ser_to_enum_test_xc : test_der ser_to_enum_X_a ser_to_enum_X_d ser_to_enum_X_p (inr (inr (inl ([1; 2; 3], tt)))) = Some (Ok [4; 3; 1; 2; 3]) /\
  test_id_len ser_to_enum_X_a ser_to_enum_X_d ser_to_enum_X_p (inr (inr (inl ([1; 2; 3], tt)))) = Some (Ok None) /\
  test_contents_len ser_to_enum_X_a ser_to_enum_X_d ser_to_enum_X_p (inr (inr (inl ([1; 2; 3], tt)))) = Some (Ok None).
Proof. conforms. Qed.
(** line 81 *)
Example ser_to_enum_test_xd : test_der ser_to_enum_X_a ser_to_enum_X_d ser_to_enum_X_p (inr (inr (inr (inl ((-2)%Z, ([1; 2; 3], tt)))))) = Some (Ok [4; 3; 1; 2; 3]) /\
  test_id_len ser_to_enum_X_a ser_to_enum_X_d ser_to_enum_X_p (inr (inr (inr (inl ((-2)%Z, ([1; 2; 3], tt)))))) = Some (Ok None) /\
  test_contents_len ser_to_enum_X_a ser_to_enum_X_d ser_to_enum_X_p (inr (inr (inr (inl ((-2)%Z, ([1; 2; 3], tt)))))) = Some (Ok None).
Proof. conforms. Qed.
