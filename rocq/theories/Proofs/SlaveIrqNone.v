(** An application that writes nothing: the handlers of Model.SlaveIrqData are those of Model.SlavePDU. *)
From Verif Require Export Model.SlaveIrqData.
Definition none : nat -> list aw := fun _ => [].
Lemma before_none i d : before none i d = d. Proof. reflexivity. Qed.
Ltac nx := match goal with
  | |- context [bind ?x _] => lazymatch x with bind _ _ => fail | (if _ then _ else _) => fail | read_coil_loop _ _ _ _ _ _ _ => fail | read_din_loop _ _ _ _ _ _ _ => fail | read_reg_loop _ _ _ _ _ _ _ => fail | read_coil_loop_i _ _ _ _ _ _ _ => fail | read_din_loop_i _ _ _ _ _ _ _ => fail | read_reg_loop_i _ _ _ _ _ _ _ _ => fail | set_coil_din_value_loop_i _ _ _ _ _ _ _ _ => fail | write_multi_reg_loop_i _ _ _ _ _ _ _ => fail | set_coil_din_value_loop _ _ _ _ _ _ _ _ => fail | write_multi_reg_loop _ _ _ _ _ _ _ => fail | _ => destruct x as [?| |]; cbn [bind]; try reflexivity end
  | |- context [if ?b then _ else _] => destruct b; cbn [bind]; try reflexivity
  | |- context [let '(_, _) := ?x in _] => destruct x; cbn [bind]; try reflexivity
  end.
Lemma coil_none d n : forall m adr i last, read_coil_loop_i none n d m adr i last = let* e := read_coil_loop n (t_coils d) (v_bits d) m adr i last in Ok (e, d).
Proof. induction n as [|n IH]; intros m adr i last; [reflexivity|]. cbn [read_coil_loop_i read_coil_loop]. rewrite before_none. repeat nx. all: try apply IH. Qed.
Lemma din_none d n : forall m adr i last, read_din_loop_i none n d m adr i last = let* '(m, v) := read_din_loop n (t_din d) (v_bits d) m adr i last in Ok (m, v, d).
Proof. induction n as [|n IH]; intros m adr i last; [reflexivity|]. cbn [read_din_loop_i read_din_loop]. rewrite before_none. repeat nx. all: try apply IH. Qed.
Lemma reg_none tb d n : forall m adr i last, read_reg_loop_i none tb n d m adr i last = let* '(m, v) := read_reg_loop n (tb d) (v_regs d) m adr i last in Ok (m, v, d).
Proof. induction n as [|n IH]; intros m adr i last; [reflexivity|]. cbn [read_reg_loop_i read_reg_loop]. rewrite before_none. repeat nx. all: try apply IH. Qed.
Lemma set_bits2 d x y : set_bits (set_bits d x) y = set_bits d y. Proof. reflexivity. Qed.
Lemma set_bits_id d : set_bits d (v_bits d) = d. Proof. destruct d. reflexivity. Qed.
Lemma set_regs_id d : set_regs d (v_regs d) = d. Proof. destruct d. reflexivity. Qed.
Lemma bits_none n req base adr : forall i d last, set_coil_din_value_loop_i none n req base adr i d last =
  let* '(st, cells) := set_coil_din_value_loop n req base adr i (t_coils d) (v_bits d) last in Ok (st, set_bits d cells).
Proof.
  induction n as [|n IH]; intros i d last; [cbn; rewrite set_bits_id; reflexivity|]. cbn [set_coil_din_value_loop_i set_coil_din_value_loop]. rewrite before_none.
  nx. destruct (if negb _ then _ else _) as [[st cells]| |]; cbn [bind]; try reflexivity. destruct (st =? RET_ERROR); [reflexivity|]. rewrite IH. cbn [set_bits t_coils v_bits]. destruct (set_coil_din_value_loop _ _ _ _ _ _ _ _) as [[? ?]| |]; reflexivity.
Qed.
Lemma regs_none n req adr : forall i d last, write_multi_reg_loop_i none n req adr i d last =
  let* '(st, cells) := write_multi_reg_loop n req adr i (t_hreg d) (v_regs d) last in Ok (st, set_regs d cells).
Proof.
  induction n as [|n IH]; intros i d last; [cbn; rewrite set_regs_id; reflexivity|]. cbn [write_multi_reg_loop_i write_multi_reg_loop]. rewrite before_none.
  nx. destruct (set_register_value _ _ _ _) as [[st cells]| |]; cbn [bind]; try reflexivity. destruct (RET_ERROR =? st); [reflexivity|]. rewrite IH. cbn [set_regs t_hreg v_regs]. destruct (write_multi_reg_loop _ _ _ _ _ _ _) as [[? ?]| |]; reflexivity.
Qed.
Lemma parse_none c m d : parse_master_request_and_prepare_resp_i none c m d = parse_master_request_and_prepare_resp c m d.
Proof.
  unfold parse_master_request_and_prepare_resp_i, parse_master_request_and_prepare_resp. destruct (_ || _); [reflexivity|]. nx.
  assert (A : forall fc, option_map (fun a => a m d) (find_handler fc (modbus_slave_function_mapper_i none c)) = option_map (fun a => a m d) (find_handler fc (modbus_slave_function_mapper c))).
  { assert (H1 : modbus_slave_read_coils_i none c m d = modbus_slave_read_coils c m d).
    { unfold modbus_slave_read_coils_i, modbus_slave_read_coils, handle_slave_read_coil_service_i, handle_slave_read_coil_service. repeat nx. all: try (rewrite coil_none; destruct (read_coil_loop _ _ _ _ _ _ _) as [[?|[? ?]]| |]; cbn [bind]; try reflexivity; repeat nx). }
    assert (H2 : modbus_slave_read_discrete_inputs_i none c m d = modbus_slave_read_discrete_inputs c m d).
    { unfold modbus_slave_read_discrete_inputs_i, modbus_slave_read_discrete_inputs, handle_slave_read_discrete_inputs_service_i, handle_slave_read_discrete_inputs_service. repeat nx. all: try (rewrite din_none; destruct (read_din_loop _ _ _ _ _ _ _) as [[? ?]| |]; cbn [bind]; try reflexivity; repeat nx). }
    assert (H3 : modbus_slave_read_holding_reg_i none c m d = modbus_slave_read_holding_reg c m d).
    { unfold modbus_slave_read_holding_reg_i, modbus_slave_read_holding_reg, handle_slave_read_reg_service_i, handle_slave_read_holding_reg_service. repeat nx. all: try (rewrite reg_none; destruct (read_reg_loop _ _ _ _ _ _ _) as [[? ?]| |]; cbn [bind]; try reflexivity; repeat nx). }
    assert (H4 : modbus_slave_read_input_reg_i none c m d = modbus_slave_read_input_reg c m d).
    { unfold modbus_slave_read_input_reg_i, modbus_slave_read_input_reg, handle_slave_read_reg_service_i, handle_slave_read_input_reg_service. repeat nx. all: try (rewrite reg_none; destruct (read_reg_loop _ _ _ _ _ _ _) as [[? ?]| |]; cbn [bind]; try reflexivity; repeat nx). }
    assert (H5 : modbus_slave_write_single_coil_i none c m d = modbus_slave_write_single_coil c m d) by reflexivity.
    assert (H6 : modbus_slave_write_single_reg_i none c m d = modbus_slave_write_single_reg c m d) by reflexivity.
    assert (H7 : modbus_slave_write_multiple_coils_i none c m d = modbus_slave_write_multiple_coils c m d).
    { unfold modbus_slave_write_multiple_coils_i, modbus_slave_write_multiple_coils. repeat nx. all: try (rewrite bits_none; destruct (set_coil_din_value_loop _ _ _ _ _ _ _ _) as [[? ?]| |]; cbn [bind]; try reflexivity; repeat nx). }
    assert (H8 : modbus_slave_write_multiple_reg_i none c m d = modbus_slave_write_multiple_reg c m d).
    { unfold modbus_slave_write_multiple_reg_i, modbus_slave_write_multiple_reg, handle_slave_write_multiple_reg_service_i, handle_slave_write_multiple_reg_service. repeat nx. all: try (rewrite regs_none; destruct (write_multi_reg_loop _ _ _ _ _ _ _) as [[? ?]| |]; cbn [bind]; try reflexivity; repeat nx). }
    intros fc. unfold modbus_slave_function_mapper_i, modbus_slave_function_mapper. cbn [find_handler].
    repeat match goal with |- context [if ?b then _ else _] => destruct b; [cbn [option_map]; f_equal; assumption|] end. reflexivity. }
  match goal with |- context [find_handler ?fc _] => specialize (A fc) end.
  destruct (find_handler _ (modbus_slave_function_mapper_i none c)), (find_handler _ (modbus_slave_function_mapper c)); cbn [option_map] in A; try discriminate A; [injection A as A; exact A|reflexivity].
Qed.
