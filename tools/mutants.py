M=[]
def B(bug,file,d,old,new,claim,**k): M.append(dict(bug=bug,file=file,**{'def':d},old=old,new=new,claim=claim,**k))
# --- common
B('b01','Model/Common.v','write_u16_to_buf','let* r := wr r i (u8 (Z.shiftr data 8)) in\n  wr r (i + 1) (u8 (Z.land data 0xFF))','let* r := wr r (i + 1) (u8 (Z.shiftr data 8)) in\n  wr r i (u8 (Z.land data 0xFF))','C06: little-endian write')
B('b02','Model/Common.v','get_coil_din_byte_count','if coil_qty mod 8 =? 0 then byte_count else u8 (byte_count + 1)','u8 (byte_count + 1)','C33: a spare byte when the quantity is a multiple of 8')
B('b03','Model/Common.v','modbus_RTU_send','rr_ptr r && (rr_len r <=? MODBUS_PDU_MAX_LEN)','rr_ptr r && (rr_len r <=? MODBUS_PDU_MAX_LEN + 2)','C05: the two CRC bytes overflow the buffer')
B('b04','Model/Common.v','modbus_RTU_send','let* r := wr r (rr_len r) (u8 (Z.land CRC 0x00FF)) in\n    let* r := wr r (rr_len r + 1) (u8 (Z.shiftr CRC 8)) in','let* r := wr r (rr_len r) (u8 (Z.shiftr CRC 8)) in\n    let* r := wr r (rr_len r + 1) (u8 (Z.land CRC 0x00FF)) in','C01/C03: CRC bytes swapped')
B('b05','Model/Common.v','modbus_RTU_recv','if negb (slave_ID =? id) then','if negb (slave_ID =? id) && negb (id =? 0) then','C03: frames with ID 0 accepted')
B('b06','Model/Common.v','calculate_CRC','crc_loop (Z.to_nat data_buf_len) buf 0 0xFFFF','crc_loop (Z.to_nat data_buf_len) buf 0 0x0000','C01: wrong CRC seed')
B('b07','Model/Common.v','crc_loop','crc_loop n\' buf (p + 1) (u16 (Z.lxor CRC t))','crc_loop n\' buf (p + 1) (u16 (Z.lor CRC t))','C01: or instead of xor')
B('b08','Model/Common.v','CRC_loock_up_table','0x4400; 0x84C1; 0x8581; 0x4540','0x4400; 0x84C1; 0x8581; 0x4541','C01: one wrong table entry')
B('b09','Model/Common.v','modbus_RTU_recv','if negb (0 =? crc) then Ok RET_ERROR_CRC else Ok RET_OK','if negb (0 =? Z.land crc 255) then Ok RET_ERROR_CRC else Ok RET_OK','C03/C04: only one CRC byte compared')
B('b10','Model/Common.v','clear_loop','if i <? qty','if i + 1 <? qty','C33: last status byte not cleared')
# --- queue
B('b11','Model/Queue.v','modbus_queue_push','if q_items q =? N\n    then Ok (q, data)','if q_items q =? N - 1\n    then Ok (q, data)','C18: capacity N-1')
B('b12','Model/Queue.v','modbus_queue_pop','(u8 ((q_tail q + 1) mod N)) (u8 (q_items q - 1)) slots)','(u8 ((q_tail q + 1) mod N)) (q_items q) slots)','C18: item count not decremented',nth=0)
B('b13','Model/Queue.v','check_data_to_send_availability','negb (q_head q =? q_tail q) || (0 <? q_items q)','negb (q_head q =? q_tail q)','C18: a full queue looks empty')
B('b14','Model/Queue.v','modbus_queue_init','mk_queue 0 0 0 (q_slots q)','mk_queue 0 0 (q_items q) (q_slots q)','C59: initialisation keeps the item count')
B('b15','Model/Queue.v','modbus_queue_pop','if q_items q =? 0\n    then Ok (None, q)','if q_items q <=? 1\n    then Ok (None, q)','C18: a queue of capacity 1 never yields its item')
# --- slave data / PDU
B('b16','Model/SlaveData.v','table_size','if main_app_qty <? MODBUS_MAX_SPECIFIC_DATA_ITEMS_QTY','if main_app_qty <? 1000','C36: tables clipped too early')
B('b17','Model/SlaveData.v','set_coil_state','let* cells := aset cells (Z.of_nat c) v in Ok (RET_OK, cells)','Ok (RET_OK, cells)','C34: coil write has no effect',nth=0)
B('b18','Model/SlavePDU.v','range_exceeded','app_data_qty <? adr + data_qty','app_data_qty <=? adr + data_qty','C35: last address refused')
B('b19','Model/SlavePDU.v','range_exceeded','app_data_qty <? adr + data_qty','app_data_qty <? adr','C35/C36: range end not checked')
B('b20','Model/SlavePDU.v','read_reg_loop','write_u16_to_buf (m_resp m) (MODBUS_RESP_READ_DATA_IDX + i * 2) (u16 v)','write_u16_to_buf (m_resp m) (MODBUS_RESP_READ_DATA_IDX + i) (u16 v)','C33: registers overlap')
B('b21','Model/SlavePDU.v','handle_slave_read_input_reg_service','(t_ireg d) (v_regs d)','(t_hreg d) (v_regs d)','C33: input registers read from the holding table')
B('b22','Model/SlavePDU.v','check_write_single_coil_req_data_correctness','else if c_coils c <=? coil_adr','else if c_coils c <? coil_adr','C35/C36: coil address MAIN_APP_COILS_QTY accepted')
B('b23','Model/SlavePDU.v','set_coil_din_value_loop','Z.land byte (Z.shiftl 1 (i mod 8)) =? 0','Z.land byte (Z.shiftl 1 (7 - i mod 8)) =? 0','C34: bit order reversed',nth=0)
B('b24','Model/SlavePDU.v','set_exception_code_resp','u8 (Z.lor fc MODBUS_EXCEPTION_CODE_MASK)','fc','C35: exception bit missing')
B('b25','Model/SlavePDU.v','write_multi_reg_loop','set_register_value tab cells (adr + i) v','set_register_value tab cells adr v','C34: all registers written to the first address')
B('b26','Model/SlavePDU.v','modbus_slave_function_mapper','(FC_WRITE_SINGLE_REGISTER, modbus_slave_write_single_reg c)','(FC_WRITE_SINGLE_REGISTER, modbus_slave_write_single_coil c)','C34: wrong handler for function 6')
B('b27','Model/SlavePDU.v','handle_slave_write_single_reg_service','let* r := write_u16_to_buf r MODBUS_RESP_WRITE_SINGLE_DATA_IDX reg_val_to_save in','let* r := write_u16_to_buf r MODBUS_RESP_WRITE_SINGLE_DATA_IDX adr in','C34: wrong echo')
# --- slave manager
B('b28','Model/Slave.v','s_line L169','if negb (st =? RET_OK) then go L171 s','if st =? RET_ERROR_CRC then go L171 s','C38/C50: frames for other slaves executed')
B('b29','Model/Slave.v','s_line L171','go L173 (s_set_fe s SET)','go L173 s','C38: damaged frames executed')
B('b30','Model/Slave.v','s_line L188','Ok (Some L189, s_set_msg s (set_req (s_msg s) (set_len (m_req (s_msg s)) 0)), [SoClear])','Ok (Some L189, s, [SoClear])','C41: receive length not reset after a discarded frame')
B('b31','Model/Slave.v','s_line L190','Ok (Some L191, s_set_fe s CLEARED, [SoDiscard])','Ok (Some L191, s, [SoDiscard])','C41: frame error never consumed')
B('b32','Model/Slave.v','s_line L200','| L200 => ret (s_set_t35 s CLEARED)','| L200 => ret s','C38/C39: stale 3.5-character flag executes a frame too early')
B('b33','Model/Slave.v','s_line L193b','if is_set (s_t35 s) then go L195 s else ret s','go L195 s','C38: executed before the 3.5-character pause')
B('b34','Model/Slave.v','s_line L216','if is_clr (s_tx s) then go L218 s else ret s','go L218 s','C39: next request handled during transmission')
B('b35','Model/Slave.v','s_line L167','go L168 (s_set_t15 s CLEARED)','go L168 s','C39: frame handled twice')
B('b36','Model/Slave.v','s_line L196','modbus_RTU_send (m_resp (s_msg s)) (s_id s)','modbus_RTU_send (m_resp (s_msg s)) 0','C40: answer with slave ID 0')
B('b37','Model/Slave.v','s_event SRx','(set_len r (u8 (rr_len r + 1)))','(set_len r (rr_len r))','C40/C51: receive length not advanced')
B('b38','Model/Slave.v','init_modbus_slave_internall_data','s_set_tx s CLEARED','s','C47: transmission flag not initialised',nth=2)
B('b39','Model/Slave.v','modbus_slave_register','Ok (s_set_data s (mk_sdata (t_coils d) tb (t_ireg d) (t_hreg d)','Ok (s_set_data s (mk_sdata tb (t_din d) (t_ireg d) (t_hreg d)','C45: discrete inputs registered as coils')
# --- master PDU
B('b40','Model/MasterPDU.v','read_reg_request','(MODBUS_MIN_REG_COIL_QTY <=? data_len)','(0 <=? data_len)','C08: quantity 0 accepted')
B('b41','Model/MasterPDU.v','modbus_get_max_len_2_read','then MODBUS_MAX_READ_DISCRETE_INPUTS_QTY','then MODBUS_MAX_WRITE_COILS_QTY','C08: discrete input limit too small')
B('b42','Model/MasterPDU.v','modbus_master_write_multiple_reg_req','(MODBUS_MAX_WRITE_REG_QTY <? p_qty p)','(MODBUS_MAX_READ_REG_QTY <? p_qty p)','C08/C05: too many registers accepted')
B('b43','Model/MasterPDU.v','write_coils_loop','Z.shiftl (b2z data) (i mod 8)','Z.shiftl (b2z data) (7 - i mod 8)','C07: coil bit order reversed')
B('b44','Model/MasterPDU.v','modbus_master_write_multiple_coils_req','let* r := clear_coil_din_status_byte r MODBUS_REQUEST_WRITE_MULTI_DATA_IDX byte_count in\n','','C07: stale bits in coil writes',edit='the clearing of the data bytes removed')
B('b45','Model/MasterPDU.v','modbus_master_write_single_coil_req','b2z (p_coil p) * COIL_ON','b2z (p_coil p)','C07: coil ON sent as 1')
B('b46','Model/MasterPDU.v','update_bits_loop','then mk slave_adr (u16 (data_adr + i)) true\n               else mk slave_adr (u16 (data_adr + i)) false','then mk slave_adr (u16 data_adr) true\n               else mk slave_adr (u16 data_adr) false','C11: all bits reported for the first address')
B('b47','Model/MasterPDU.v','process_modbus_exception_code','mk_exc id (Z.land fc 0x7F) code adr qty','mk_exc id fc code adr qty','C13: exception bit not removed: nothing reported')
B('b48','Model/MasterPDU.v','report_write_operation_confirmation','Ok (RET_OK, [CoilWrite slave_adr data_adr data_qty])','Ok (RET_OK, [CoilWrite slave_adr data_adr 1])','C12: wrong quantity confirmed')
B('b49','Model/MasterPDU.v','send_exception_code_report_data','else if x_fc e =? FC_READ_DISCRETE_INPUTS then [DisinExc e]','else if x_fc e =? FC_READ_DISCRETE_INPUTS then [CoilExc e]','C13: exception of a discrete input read reported to the coil callback')
# --- driver
B('b50','Model/Driver.v','usart_send','mk_drv b 0 (msg_len - 1) true','mk_drv b 0 msg_len true','C52: one byte too many')
B('b51','Model/Driver.v','usart_irq_rx','(set_len r (u8 (rr_len r + 1)))','(set_len r (rr_len r + 1))','C51: length overflows 255')
B('b52','Model/Driver.v','get_ARR_value','if q =? 0 then UB else Ok (16042 / q)','if q =? 0 then Ok 0 else Ok (16042 / q)','C53: (model weakening) division by zero hidden')
# --- master requests
B('b53','Model/Master.v','api_param','WriteSingleReg adr id v => mk_param FC_WRITE_SINGLE_REGISTER adr 0 id false None v None','WriteSingleReg adr id v => mk_param FC_WRITE_SINGLE_REGISTER id 0 adr false None v None','C07: address and ID swapped')
B('b54','Model/Master.v','generate_request','let* \'(q, _) := modbus_queue_push (c_queue c) (mm_txq s) (Some i) in\n          Ok (REQUEST_SEND_TO_QUEUE, m_set_txq s q)','let* \'(q, _) := modbus_queue_push (c_queue c) (mm_txq s) (Some i) in\n          Ok (REQUEST_SEND_TO_QUEUE, s)','C20: accepted requests are never queued')
B('b55','Model/Master.v','generate_request','if st <? 0 then Ok (LIB_PDU_REQ_ERROR, s)','if st <? -1 then Ok (LIB_PDU_REQ_ERROR, s)','C08: bad quantity accepted with the previous frame')
# --- master manager
B('b56','Model/Master.v','m_line M749','let* st := modbus_RTU_recv (m_resp m) id in','let* st := modbus_RTU_recv (m_resp m) 0 in','C22: responses of slave 0 accepted')
B('b57','Model/Master.v','m_line M753','go M754 (m_set_crc s SET)','go M754 s','C22: damaged responses delivered')
B('b58','Model/Master.v','m_line M792c','if is_set (mm_t35 s) then go M813 s else ret s','go M813 s','C22: delivered before the 3.5-character pause')
B('b59','Model/Master.v','m_line M834','if mm_rep s <=? c_repeat c then go M836 s else go M844 s','if mm_rep s <=? c_repeat c + 1 then go M836 s else go M844 s','C21: one repetition too many')
B('b60','Model/Master.v','m_line M900','go M901 (m_set_rep s 0)','go M901 s','C32/C21: repeat counter not reset')
B('b61','Model/Master.v','m_line M901','let* \'(q, p) := modbus_queue_push (c_queue c) (mm_free s) (mm_cur s) in\n      Ok (Some M902, m_set_cur (m_set_free s q) p, [MoFree])','Ok (Some M902, s, [MoFree])','C19: buffer never handed back')
B('b62','Model/Master.v','m_line M837','Ok (Some M838, m_set_crc s CLEARED, [MoRetry RESP_RTU_CRC_ERR])','Ok (Some M838, s, [MoRetry RESP_RTU_CRC_ERR])','C32: CRC error never consumed')
B('b63','Model/Master.v','m_line M671','let* s := set_cur_resp_len s 0 in Ok (Some M672, s, [MoClear])','Ok (Some M672, s, [MoClear])','C22: receive length not reset before the response',nth=0)
B('b64','Model/Master.v','m_line M694','if 1 =? mm_timer s then go M718 s else ret s','if 0 =? mm_timer s then go M718 s else ret s','C24: timeout one tick later')
B('b65','Model/Master.v','m_line M672','go M673 (m_set_timer s (u32 (c_timeout c)))','go M673 s','C24: timeout never started')
B('b66','Model/Master.v','m_line M756','if RET_ERROR_SLAVE_ID =? st then go M758 s else go M762 s','go M762 s','C22/C23: foreign frames delivered')
B('b67','Model/Master.v','m_line M758','let* s := set_cur_resp_len s 0 in Ok (None, s, [MoClear])','Ok (None, s, [MoClear])','C23: receive length not reset after a foreign frame',nth=0)
B('b68','Model/Master.v','m_line M405','go M406 (m_set_rx s (Some i))','go M406 s','C19: responses received into an old buffer')
B('b69','Model/Master.v','m_line M844','Ok (Some M900, s, [MoCb (CommErr r)])','Ok (Some M900, s, [])','C21: final communication error not reported',nth=0)
B('b70','Model/Master.v','m_line M792b','if is_clr (mm_crc s) then go M792c s else ret s','go M792c s','C22: damaged response delivered when the 3.5 event comes late')
B('b71','Model/Master.v','m_line M669','if is_clr (mm_tx s) then go M671 s else ret s','go M671 s','C21: timeout runs during transmission')
B('b72','Model/Master.v','timeout_report','mk_err id fc adr qty RESP_TIMEOUT_ERR','mk_err id fc qty adr RESP_TIMEOUT_ERR','C26: address and quantity swapped')
B('b73','Model/Master.v','comm_report','let* id := rd (m_resp m) MODBUS_SLAVE_ADR_IDX in\n  let* fc := rd (m_resp m) MODBUS_FUNCTION_CODE_IDX in','let* id := rd (m_resp m) MODBUS_FUNCTION_CODE_IDX in\n  let* fc := rd (m_resp m) MODBUS_SLAVE_ADR_IDX in','C26: ID and function code swapped')
B('b74','Model/Master.v','m_event MTick','m_set_timer s (mm_timer s - 1)','m_set_timer s 0','C24: one tick ends the timeout period')
B('b75','Model/Master.v','modbus_master_init','let s := m_set_rep s 0 in','','C59: repeat counter survives initialisation',edit='reset of the repeat counter removed')
B('b76','Model/Master.v','register_msg_req_resp_data_buffers','RTU => true','RTU => false','C59: buffers never registered')
B('b77','Model/Master.v','m_line M748','Ok (Some (M749 id), m_set_t35 s CLEARED, [MoHandle])','Ok (Some (M749 id), s, [MoHandle])','C22: stale 3.5-character flag delivers too early')
# --- slave firmware
B('b78','Model/SlaveSystem.v','send_line D86','mk_uart (u_cur u) (n - 1)','mk_uart (u_cur u) n','C63/C64: one byte too many on the line')
B('b79','Model/SlaveSystem.v','send_line D85','mk_uart 0 (u_last u)','mk_uart (u_cur u) (u_last u)','C63/C64: the second response starts in the middle')
B('b80','Model/SlaveSystem.v','send_line D88','(u_rdr u) true (u_rtof u)','(u_rdr u) (u_txeie u) (u_rtof u)','C64: only one byte of the response is transmitted')
B('b81','Model/SlaveSystem.v','y_usart_rx','None (u_txeie u) (u_rtof u) true (u_uif u) in','None (u_txeie u) (u_rtof u) (u_cen u) (u_uif u) in','C64: the 3.5-character timer is not started')
B('b82','Model/SlaveSystem.v','y_usart_rx','(u_tdr u) None (u_txeie u) (u_rtof u) true','(u_tdr u) (u_rdr u) (u_txeie u) (u_rtof u) true','C66/C64: a received byte is stored twice')
B('b83','Model/SlaveSystem.v','y_usart_tx','if u_cur u <? u_last u','if u_cur u <=? u_last u','C63: one byte too many')
B('b84','Model/SlaveSystem.v','y_usart_tx','(u_rdr u) false (u_rtof u) (u_cen u) (u_uif u), [YLib (TEv STxDone)]','(u_rdr u) (u_txeie u) (u_rtof u) (u_cen u) (u_uif u), [YLib (TEv STxDone)]','C64: the transmit interrupt stays enabled for ever')
B('b85','Model/SlaveSystem.v','y_usart_rto','mk_uart (u_cur u) (u_last u) true','mk_uart (u_cur u) (u_last u) (u_det u)','C67: gaps inside a frame go unnoticed')
B('b86','Model/SlaveSystem.v','y_timer','mk_uart (u_cur u) (u_last u) false (u_tdr u) (u_rdr u) (u_txeie u) false (u_cen u) false','mk_uart (u_cur u) (u_last u) (u_det u) (u_tdr u) (u_rdr u) (u_txeie u) false (u_cen u) false','C67/C64: every later byte is a frame error')
B('b87','Model/SlaveSystem.v','y_timer','(u_txeie u) false (u_cen u) false, [YLib (TEv ST35)]','(u_txeie u) (u_rtof u) (u_cen u) false, [YLib (TEv ST35)]','C64: the time-out interrupt is requested for ever')
B('b88','Model/SlaveSystem.v','y_usart_tx','rd (m_resp (s_msg (sc_s k))) (u_cur u + 1)','rd (m_req (s_msg (sc_s k))) (u_cur u + 1)','C63/C64: bytes of the request are transmitted')
B('b89','Model/SlaveSystem.v','HTim','(u_rtof u) false true) (y_sub y), [])','(u_rtof u) true true) (y_sub y), [])','C66: the timer is not one-pulse: answers without reception possible',nth=0)
# --- master firmware
F='Model/MasterSystem.v'
B('b90',F,'w_send_line W84','(256 * Z.of_nat i + n - 1)','(256 * Z.of_nat i + n)','C69: one byte too many on the line')
B('b91',F,'w_send_line W83','mk_uart (256 * Z.of_nat i) (u_last u)','mk_uart (u_cur u) (u_last u)','C69: the second request starts in the middle')
B('b92',F,'w_send_line W85','let* b := rd (m_req m) 0 in','let* b := rd (m_resp m) 0 in','C69: the first byte on the line is taken from the response buffer')
B('b93',F,'w_usart_tx','if u_cur u <? u_last u','if u_cur u <=? u_last u','C69: one byte too many')
B('b94',F,'req_byte','rd (m_req m) (p mod 256)','rd (m_resp m) (p mod 256)','C69: bytes of the response buffer are transmitted')
B('b95',F,'w_call_send','Ok (Some (if rr_ptr r && (0 <? rr_len r) then W83 i (rr_len r) else W89))','Ok (Some (if rr_ptr r && (0 <? rr_len r) then W83 0%nat (rr_len r) else W89))','C69: always the first buffer is transmitted')
B('b96',F,'w_usart_rx','| None => UB\n      | Some _ =>','| None => Ok (k, u, [])\n      | Some _ =>','C68_refuted: (correct program) the NULL dereference is gone')
B('b97',F,'w_usart_tx','Some b) (u_rdr u) (u_txeie u) (u_rtof u) (u_cen u) (u_uif u), [])','Some b) (u_rdr u) (u_txeie u) (u_rtof u) (u_cen u) (u_uif u), [WLine b])','C69: a byte is seen twice on the line')
B('b98',F,'w_send_line W86','(u_rdr u) true (u_rtof u)','(u_rdr u) (u_txeie u) (u_rtof u)','C71-C74: only the first byte of a request is transmitted')
B('b99',F,'w_usart_rx','None (u_txeie u) (u_rtof u) true (u_uif u) in','None (u_txeie u) (u_rtof u) (u_cen u) (u_uif u) in','C71: the 3.5-character timer is not started')
B('b100',F,'w_usart_tx','(u_rdr u) false (u_rtof u) (u_cen u) (u_uif u), t1)','(u_rdr u) (u_txeie u) (u_rtof u) (u_cen u) (u_uif u), t1)','C71: the transmit interrupt stays enabled for ever')
B('b101',F,'w_usart_rto','mk_uart (u_cur u) (u_last u) true (u_tdr u) (u_rdr u) (u_txeie u) false (u_cen u)','mk_uart (u_cur u) (u_last u) true (u_tdr u) (u_rdr u) (u_txeie u) true (u_cen u)','C71: the time-out interrupt is requested for ever')
B('b102',F,'w_send_line W89','mk_uart (u_cur u) (u_last u) false (u_tdr u)','mk_uart (u_cur u) (u_last u) (u_det u) (u_tdr u)','C71: after a stale frame-end flag every byte of the answer is a frame error',nth=0)
B('b103',F,'w_timer','let* \'(k1, t1) := w_event c MT35 k in','let* \'(k1, t1) := w_event c MT15 k in','C71: the end of the answer is never signalled')
B('b104',F,'w_act WTick','| WTick => let* \'(k\', t) := w_event c MTick k in Ok (mk_mfw k\' u (w_sub w), t)','| WTick => Ok (w, [])','C73: the timeout never expires')
# after C71-C75 have been tightened: the driver's frame-end flag may be set and its timer running when the request is sent
B('b105',F,'w_send_line W89','mk_uart (u_cur u) (u_last u) false (u_tdr u)','mk_uart (u_cur u) (u_last u) (u_det u) (u_tdr u)','C71: after a stale frame-end flag every byte of the answer is a frame error',nth=0)
B('b106',F,'w_send_line W90','(u_det u) (u_tdr u) (u_rdr u) (u_txeie u) (u_rtof u) false (u_uif u))','(u_det u) (u_tdr u) (u_rdr u) (u_txeie u) (u_rtof u) (u_cen u) (u_uif u))','C71: the running timer expires and ends the answer before it is complete')
B('b107',F,'w_timer','mk_uart (u_cur u) (u_last u) false (u_tdr u)','mk_uart (u_cur u) (u_last u) (u_det u) (u_tdr u)','C71: the frame-end flag stays set, the driver is not at rest',nth=1)
# the example master application (C76-C78)
A='Model/MasterApp.v'
B('b108',A,'a_act A83','(a_fw a) request_interval v A55','(a_fw a) (a_timer a) v A55','C77: requests are made in every turn of the main loop once the first interval is over')
B('b109',A,'READ_HREG_ADR','Definition READ_HREG_ADR : Z := 1','Definition READ_HREG_ADR : Z := 0','C77: register 0 is read and written back to itself')
B('b110',A,'data_cb HregRead','mk_vars (readed_coil v) (prev_coil_val v) r (prev_hreg_val v) else v','mk_vars (readed_coil v) (prev_coil_val v) (readed_hreg v) r else v','C77: the value read is stored in the wrong variable')
B('b111',A,'a_act A82','SLAVE_ADDRES_EXAMPLE_NODE (readed_hreg v)) A83','SLAVE_ADDRES_EXAMPLE_NODE (prev_hreg_val v)) A83','C77: another variable is written')
B('b112',A,'a_act AaTick','(if a_timer a =? 0 then 0 else a_timer a - 1)','((a_timer a - 1) mod 65536)','C78: the interval timer wraps around if the main loop is late')
B('b113',A,'a_act A66','(if a_timer a =? 0 then A79 else A55)','(if a_timer a =? 1 then A79 else A55)','C78: no requests any more if the main loop misses the one millisecond')
B('b114',A,'data_cb HregExc','| HregExc _ => mk_vars (readed_coil v) (prev_coil_val v) (readed_hreg v) 0','| HregExc _ => mk_vars (readed_coil v) (prev_coil_val v) 0 0','C77: an exception answer clears the value to be written')
B('b115',A,'a_act A80','SLAVE_ADDRES_EXAMPLE_NODE) A81 a','SLAVE_ADDRES_EXAMPLE_NODE) A82 a','C77: the coil is not written')
SA = "Model/SlaveApp.v"
B("b117", SA, "registrations", "[(TCoils, 21, p_LED_status)]", "[(TCoils, 20, p_LED_status)]", "C79, C80: the LED is at coil 20 instead of 21")
B("b118", SA, "registrations", "(seq 0 20)", "(seq 0 19)", "C79: the last variable of every table is not registered")
B("b119", SA, "p_LED_status", "40%nat", "39%nat", "C80: update_LED and coil 21 use another variable (din_data[19])")
B("b120", SA, "b_act", "(if v then true else false)", "(if v then false else true)", "C80: the LED is inverted")
B("b121", SA, "b_act", "(if s_between_polls y then B57 else B55)", "B55", "C80: update_LED is never called")
B("b122", SA, "registrations", "(TDin, Z.of_nat i, p_din i)", "(TDin, Z.of_nat i, p_coil i)", "C79: discrete inputs show the coils")
B("b123", SA, "slave_app", "modbus_slave_init RTU Slave_ID", "modbus_slave_init RTU 2", "C79: the slave listens to another ID")
# line settings (C81-C84)
L='Model/Line.v'
B('b124',L,'USART_set_CR ODD','| ODD => set_CR1 p (CR1 p |\' (CR1_PCE |\' CR1_PS |\' CR1_M0))','| ODD => set_CR1 p (CR1 p |\' (CR1_PCE |\' CR1_PS))','C81: seven data bits with odd parity')
B('b125',L,'USART_set_CR NONE','set_CR2 p (CR2 p |\' CR2_STOP_1)','p','C81: only one stop bit without parity')
B('b126',L,'USART_set_CR EVEN','let p := set_CR1 p (CR1 p &~ CR1_PS) in','let p := set_CR1 p (CR1 p |\' CR1_PS) in','C81: EVEN sends odd parity')
B('b127',L,'USART_module_config','set_BRR p (64000000 / baud)','set_BRR p (64000000 / baud / 2)','C81/C84: twice the bit rate')
B('b128',L,'USART_module_config','Ok (set_CR1 p (CR1 p |\' CR1_UE))','Ok p','C81: the USART is not enabled')
B('b129',L,'TIMER7_init','(64000000 / 1000000 - 1)','(64000000 / 1000000)','C84: the timer counts 65/64 microseconds')
B('b130',L,'USART_module_config','set_RTOR p (RTOR p |\' r)','set_RTOR p (RTOR p)','C84: the time-out of 1.5 characters is not set')
B('b131','Model/Driver.v','get_ARR_value','16042','16000','C84: pause of 3.5 characters too short')
B('b132',L,'TIMER7_init','(T_CR1 p |\' (T_OPM |\' T_URS))','(T_CR1 p |\' T_URS)','C81: the timer is not one-shot')
B('b133',L,'stored','u8 (rdr c)','rdr c','C82: the parity bit is stored as bit 8 of the byte')
# both example applications (C85)
B('b134','Model/MasterApp.v','a_act A81','(readed_coil v)) A82','(prev_coil_val v)) A82','C85: coil 0 of the slave does not follow coil 1')
B('b135','Model/MasterApp.v','data_cb HregRead','then mk_vars (readed_coil v) (prev_coil_val v) r (prev_hreg_val v)','then mk_vars (readed_coil v) (prev_coil_val v) (readed_hreg v) r','C85: the value read is stored in the wrong variable')
B('b136','Model/MasterApp.v','WRITE_HREG_ADR','Definition WRITE_HREG_ADR : Z := 0.','Definition WRITE_HREG_ADR : Z := 1.','C85: holding register 0 is not written')
B('b137','Model/SlaveApp.v','registrations','(THreg, Z.of_nat i, p_hreg i)','(THreg, Z.of_nat i, p_inreg i)','C79/C85: holding registers show the input registers')
# constants and definitions not touched so far
T='Model/Types.v'; P='Model/SlavePDU.v'; D='Model/SlaveData.v'; MP='Model/MasterPDU.v'; DR='Model/Driver.v'; CM='Model/Common.v'
def K(i,n,a,b,c): B(i,T,n,'Definition %s : Z := %s.'%(n,a),'Definition %s : Z := %s.'%(n,b),c)
K('b138','MODBUS_MAX_READ_COILS_QTY','0x7D0','0x7D1','C08/C34: 2001 coils are accepted')
K('b139','MODBUS_MAX_READ_DISCRETE_INPUTS_QTY','0x7D0','0x7CF','C08/C34: 2000 discrete inputs are refused')
K('b140','MODBUS_MAX_WRITE_COILS_QTY','0x7B0','0x7AF','C08/C34: 1968 coils are refused')
K('b141','MODBUS_MAX_READ_REG_QTY','0x7D','0x7E','C08/C34: 126 registers are accepted')
K('b142','MODBUS_MAX_WRITE_REG_QTY','0x7B','0x7A','C08/C34: 123 registers are refused')
K('b143','MODBUS_MIN_REG_COIL_QTY','1','2','C08: a request for one item is refused')
K('b144','MODBUS_WRITE_MULTI_RESP_LEN','6','5','C33: answer to a multiple write one byte short')
K('b145','COIL_ON','0xFF00','0x00FF','C07/C33: coil on is 00FF on the wire')
K('b146','MODBUS_SERVER_DEVICE_FAILURE_ERROR','4','5','C33: another exception code for an unregistered address')
K('b147','FC_READ_INPUT_REGISTERS','0x04','0x14','C07/C33: another function code on the wire')
K('b148','MODBUS_PDU_MAX_LEN','253','252','C05: a PDU of the maximal length is refused')
B('b149',P,'check_read_req_data_correcntess','if (0 =? data_qty) || (max_read_data_qty <? data_qty)','if (max_read_data_qty <? data_qty)','C34: a request for zero items is answered normally')
B('b150',P,'check_write_req_reg_byte_count_correctenss','if byte_count =? reg_qty * 2','if byte_count <=? reg_qty * 2','C34/C36: a short byte count is accepted')
B('b151',P,'read_din_loop','Z.shiftl v (i mod 8)','Z.shiftl v (7 - i mod 8)','C33: bits of discrete inputs reversed',nth=1)
B('b152',P,'modbus_slave_write_single_reg','if c_hreg c <=? adr','if c_hreg c <? adr','C34: the register after the last is written')
B('b153',P,'modbus_slave_read_input_reg','(u16 (c_ireg c))','(u16 (c_hreg c))','C34: input registers limited by the number of holding registers')
B('b154',P,'parse_master_request_and_prepare_resp','MODBUS_ILLEGAL_FUNCTION_ERROR in','MODBUS_ILLEGAL_DATA_VALUE_ERROR in','C35: unknown function answered with the wrong exception')
B('b155',P,'handle_slave_write_single_coil_service','(negb (coil_state =? 0))','(coil_state =? 0)','C33: the coil gets the opposite value')
B('b156',D,'set_register_value','let* cells := aset cells (Z.of_nat c) v in','let* cells := aset cells (Z.of_nat c) (u8 v) in','C33: only the low byte is stored',nth=1)
B('b157',D,'get_register_state','| Some c => aget cells (Z.of_nat c)\n  | None => Ok RET_ERROR','| Some c => aget cells (Z.of_nat c)\n  | None => Ok 0','C33: an unregistered register reads 0')
B('b158',MP,'update_regs_loop','(u16 (data_adr + i)) v :: rest','(u16 (data_adr)) v :: rest','C11: every register is reported at the first address')
B('b159',MP,'modbus_master_function_mapper','(FC_WRITE_MULTIPLE_COILS, report_write_operation_confirmation)','(FC_WRITE_MULTIPLE_COILS, update_master_data_from_modbus_msg)','C12: no confirmation for a multiple coil write')
B('b160',MP,'gen_pdu_loop','then let* \'(st, m) := f m p in gen_pdu_loop t m p st','then let* \'(_, m) := f m p in gen_pdu_loop t m p st','C08: every request is reported as refused')
B('b161',MP,'write_regs_loop','let* data := arr_get regs i in','let* data := arr_get regs 0 in','C07: the first value is written to every register')
B('b162',DR,'get_RTOR_value','u32 (q * 83)','q * 83','C84: no wrap-around of the product (only differs above 2^32)')
B('b163',DR,'range_exceeded_w','(adr + data_qty) mod 2 ^ 16','adr + data_qty','C46: no wrap-around with 16-bit int (the bug of the code removed)')
B('b164','Model/Master.v','m_act','Ok (mk_mconf s (mc_pc k), MTEv e :: map MTOut o)','Ok (mk_mconf s None, MTEv e :: map MTOut o)','C19: an interrupt ends the poll that it interrupts')
B('b165','Model/Master.v','m_dispatch','| M_REPEAT_REQUEST => M404','| M_REPEAT_REQUEST => M649','C20: a request is not repeated')
B('b166','Model/Slave.v','s_dispatch','| S_UNKNOWN => L232','| S_UNKNOWN => L164','C50: no recovery from an unknown state')
B('b167','Model/Slave.v','init_modbus_driver','s_set_sub (s_set_rx (s_set_drv s true) true) true','s_set_sub (s_set_drv s true) true','C39: reception is never enabled')
B('b168','Model/MasterApp.v','UPDATE_INTERVAL_MS','Definition UPDATE_INTERVAL_MS : Z := 300.','Definition UPDATE_INTERVAL_MS : Z := 299.','C78: requests are issued too early')
B('b169','Model/SlaveApp.v','Slave_ID','Definition Slave_ID : Z := 1.','Definition Slave_ID : Z := 3.','C79/C85: the slave listens to another ID')
B('b170',L,'rx_bit','mk_rchar acc','mk_rchar (rev acc)','C82: bits in the wrong order')
B('b171','Model/Slave.v','s_event','SFrameErr => Ok (if s_sub s then','SFrameErr => Ok (if s_sub s && negb (is_set (s_t15 s)) then','C89: a frame error after the 1.5-character event is ignored, one before it is not')
B('b172','Model/Master.v','m_event','MTick => Ok (if negb (mm_timer s =? 0) then','MTick => Ok (if negb (mm_timer s =? 0) && is_clr (mm_t15 s) then','C89: ticks after the 1.5-character event are not counted')
B('b173','Model/Master.v','m_event','MFrameErr => Ok (if mm_sub s then m_set_fe s SET','MFrameErr => Ok (if mm_sub s then m_set_t15 (m_set_fe s SET) CLEARED','C89: a frame error withdraws the 1.5-character event')
B('b174','Model/SlavePDU.v','parse_master_request_and_prepare_resp','then Ok (RET_NULL_PTR_ERROR, m, d)','then Ok (RET_NULL_PTR_ERROR, m, d) else if 255 <=? rr_len (m_req m) then Ok (RET_ERROR, m, d)','C87: the interpretation looks at the length field, which interrupts change')
B('b175','Model/Master.v','m_line',"let* '(_, l) := modbus_master_read_slave_resp m in","let* '(_, l) := (if rr_len (m_resp m) =? 255 then Ok (RET_ERROR, []) else modbus_master_read_slave_resp m) in",'C87: the interpretation looks at the length field, which interrupts change')
B('b176','Model/Master.v','m_event','match mm_rx s with','match mm_cur s with','C25/C88: bytes are stored in the message of the current request pointer')
B('b177','Model/Master.v','m_event',"let* '(r, s) := modbus_master_request c a s in Ok (s, [MoRet a r])","let* '(r, s) := modbus_master_request c a s in Ok (m_set_fe s CLEARED, [MoRet a r])",'C88: a request call withdraws a frame error')
B('b178','Model/Master.v','generate_request','let* s := put_msg s i (set_req m r) in','let* s := put_msg s i (set_resp (set_req m r) (set_len (m_resp m) 0)) in','C88: a request call empties the response half of the message it takes')
B('b179','Model/Slave.v','s_event','let* r := wr r (rr_len r) (u8 b) in','let* r := wr r (if is_set (s_t35 s) then 0 else rr_len r) (u8 b) in','C87: a byte that arrives after the end of the frame overwrites its first byte')
B('b180','Model/Master.v','m_event','let* r := wr r (rr_len r) (u8 b) in','let* r := wr r (if is_set (mm_t35 s) then 0 else rr_len r) (u8 b) in','C87: a byte that arrives after the end of the frame overwrites its first byte')
QS='Model/QueueSteps.v'; CK='Model/Clock.v'; MF='Model/MasterFine.v'
B('b181',QS,'push_step','Ok (P72, set_head q (u8 nh))','Ok (P73, set_head q (u8 nh))','C91: a push into a non-empty queue does not count the item')
B('b182',QS,'push_step','Ok (if q_items q =? N then PDone data','Ok (if q_items q =? N - 1 then PDone data','C91: the queue is full one item early')
B('b183',QS,'push_step','| P70 nh => let* l := aset (q_slots q) (q_head q) data','| P70 nh => let* l := aset (q_slots q) (q_tail q) data','C91: a push overwrites the oldest item')
B('b184',QS,'pop_step','Ok (if q_items q =? 0 then QDone None','Ok (if q_items q =? 1 then QDone None','C91: a pop misses a single item')
B('b185',QS,'pop_step','let* r := aget (q_slots q) (q_tail q)','let* r := aget (q_slots q) (q_head q)','C91: a pop takes the newest slot')
B('b186',QS,'pop_step','| Q99 r => let* l := aset (q_slots q) (q_tail q) None in Ok (Q100 r, set_slots q l)','| Q99 r => let* l := aset (q_slots q) (q_head q) None in Ok (Q100 r, set_slots q l)','C91: a pop clears the slot the next push writes')
B('b187',QS,'pop_step','Ok (Q100s r (q_items q), q)','Ok (QDone r, q)','C91: a pop returns before its bookkeeping')
B('b188',MF,'f_pop','m_set_cur s r','s','C91: the popped message is not used')
B('b189',MF,'f_step','if 0 <? q_items (mm_txq s) then Some M651','if 1 <? q_items (mm_txq s) then Some M651','C91: a single waiting request is not sent')
B('b190',MF,'f_push','push_step (c_queue c) (mm_cur s) pc','push_step (c_queue c) (mm_rx s) pc','C91: another buffer is handed back')
B('b191',CK,'core_init_line','(Z.lor (Z.lor (Z.lor PLLSRC PLLM) PLLN) PLLR)','(Z.lor (Z.lor PLLSRC PLLN) PLLR)','C92: the divider M left by whoever ran before stays')
B('b192',CK,'core_init_line','(Z.land (CFGR p) (Z.lnot HPRE))','(Z.land (CFGR p) (Z.lnot PPRE))','C92: the AHB prescaler stays')
B('b193',CK,'core_init_line','set_RCR p (Z.lor (RCR p) PLLON)','p','C92: the PLL is never switched on, core_init does not return')
B('b194',CK,'core_init_line','then C53 else C56','then C56 else C56','C92: core_init returns before the switch to the PLL')
B('b195',CK,'core_init_line','(64000000 / 1000 - 1)','(64000000 / 1000)','C92: a tick is longer than a millisecond')
B('b196',CK,'core_init_line','if ticks then Z.lor (Z.lor CLKSOURCE ENABLE) TICKINT else','if negb ticks then Z.lor (Z.lor CLKSOURCE ENABLE) TICKINT else','C92: tick interrupt on in the wrong example')
B('b197',CK,'core_init_line','Z.lor (Z.lor PLLSRC_HSI PLLN_8) PLLR_0','Z.lor (Z.lor PLLSRC_HSI PLLN_8) PLLREN','C92: PLL output not divided by two')
B('b198',CK,'core_init_line','(Z.lor (CFGR p) SW_1)','(Z.lor (CFGR p) 0x1)','C92: the wrong clock is selected')
B('b199',CK,'core_init_line','| C41 => (C44, set_PLLCFGR p (Z.lor (PLLCFGR p) PLLREN))','| C41 => (C44, p)','C92: the PLL output is not enabled')
B('b200',CK,'core_init_line','set_ACR p (Z.lor (ACR p) LATENCY_2)','set_ACR p (Z.lor (ACR p) 0x3)','C92: core_init waits forever for the latency it did not set')
SI='Model/SlaveIrqData.v'
B('b202',SI,'read_din_loop_i','let* v := get_coil_din_state (t_din d) (v_bits d) (adr + i) in','let* v := get_coil_din_state (t_coils d) (v_bits d) (adr + i) in','C93: discrete inputs answered with coils')
B('b203',SI,'read_reg_loop_i','(set_resp m r) adr (i + 1) v','(set_resp m r) adr (i + 2) v','C93: every other register is read')
B('b204',SI,'set_coil_din_value_loop_i','let d := set_bits d cells in\n      if status','let d := set_bits d (v_bits d) in\n      if status','C93: the request writes nothing')
B('b205',SI,'write_multi_reg_loop_i','let d := before i d in\n      let* \'(status, cells) := set_register_value (t_hreg d) (v_regs d) (adr + i) v in','let d0 := d in let d := before i d in\n      let* \'(status, cells) := set_register_value (t_hreg d0) (v_regs d0) (adr + i) v in','C93: registers are written back from a copy made before the interrupt: the application\'s write is lost')
B('b206',SI,'set_coil_din_value_loop_i','let d := before i d in\n      let* \'(status, cells) :=','let d0 := d in let d := before i d in let d := set_bits d (v_bits d0) in\n      let* \'(status, cells) :=','C93: the application\'s bit writes are lost')
B('b207',SI,'handle_slave_read_reg_service_i','let* \'(m, v, d) := read_reg_loop_i tab (Z.to_nat reg_qty) d (set_resp m r) adr 0 RET_OK in\n  Ok (update_msg_len_and_ret_status m v byte_cnt, d)','let* \'(m, v, _) := read_reg_loop_i tab (Z.to_nat reg_qty) d (set_resp m r) adr 0 RET_OK in\n  Ok (update_msg_len_and_ret_status m v byte_cnt, d)','C93: a read restores the variables as they were before: writes of the application are lost')
B('b208',SI,'modbus_slave_write_single_coil_i','handle_slave_write_single_coil_service m (before 0 d) adr coil_state','handle_slave_write_single_coil_service m (before 0 d) adr (if nth 0 (v_bits (before 0 d)) false then 0xFF00 else coil_state)','C93: the value written depends on what the application wrote')
B('b209',SI,'modbus_slave_write_single_reg_i','else handle_slave_write_single_reg_service m (before 0 d)','else let* \'(st, m1, d1) := handle_slave_write_single_reg_service m d in Ok (st, m1, before 0 d1)','C93: access and write of the application in the other order')
B('b210',SI,'modbus_slave_write_multiple_coils_i','let* m := set_exception_code_resp m MODBUS_SERVER_DEVICE_FAILURE_ERROR in','let* m := set_exception_code_resp m MODBUS_ILLEGAL_DATA_ADDRESS_ERROR in','C93: wrong exception code for an unregistered coil')
B('b211',SI,'handle_slave_write_multiple_reg_service_i','let* \'(status, d) := write_multi_reg_loop_i (Z.to_nat hreg_qty) (m_req m) adr 0 d RET_OK in','let* \'(status, d) := write_multi_reg_loop_i (Z.to_nat hreg_qty - 1) (m_req m) adr 0 d RET_OK in','C93: the last register is not written')
B('b212',SI,'read_coil_loop_i','let d := before i d in\n      let* v := get_coil_din_state (t_coils d) (v_bits d) (adr + i) in\n      if RET_ERROR =? v\n      then let* m := set_exception_code_resp m MODBUS_SERVER_DEVICE_FAILURE_ERROR in Ok (inl m, d)','let* v := get_coil_din_state (t_coils d) (v_bits d) (adr + i) in\n      let d := before i d in\n      if RET_ERROR =? v\n      then let* m := set_exception_code_resp m MODBUS_SERVER_DEVICE_FAILURE_ERROR in Ok (inl m, d)','C93: stale values: the coil is read before the moment of the access')
B('b201',SI,'handle_slave_read_discrete_inputs_service_i','let* r := clear_coil_din_status_byte r MODBUS_RESP_READ_DATA_IDX byte_cnt in\n','','C93: bits of an earlier answer remain in the answer')
SR='Model/SlaveIrqRun.v'
B('b213',SR,'i_act','mk_sconf (s_set_data (sc_s k) (aw_do (s_data (sc_s k)) w)) (sc_pc k)','k','C94: writes of the application are lost')
B('b214',SR,'i_line','s_set_data (s_set_msg s m) d, [SoExec]','s_set_msg s m, [SoExec]','C94: the slave keeps the variables as they were before the request')
B('b215',SR,'i_act','(aw_do (s_data (sc_s k)) w)) (sc_pc k)','(aw_do (s_data (sc_s k)) w)) None','C94: an interrupt of the application aborts the poll')
B('b216',SR,'i_line','parse_master_request_and_prepare_resp_i app c','parse_master_request_and_prepare_resp_i (fun _ => []) c','C94: writes during the request are lost')
B('b217',SR,'i_line','(s_msg s) (s_data s) in\n           Ok','(s_msg s) (s_data s) in\n           let* \'(_, _, d) := parse_master_request_and_prepare_resp_i app c (s_msg s) d in\n           Ok','C94: the request is executed twice')
B('b218',SR,'i_act','Ok (mk_sconf s l\', map TOut o)','Ok (mk_sconf (s_set_data s (s_data (sc_s k))) l\', map TOut o)','C94: line results do not reach the variables')
RQ='Model/MasterReq.v'
B('b219',RQ,'r_step','Ok (if st <? 0 then RRet LIB_PDU_REQ_ERROR else RSend i, s)','Ok (if st <? 0 then RRet LIB_PDU_REQ_ERROR else RPush i P52, s)','C95: the frame is not completed before it is queued')
B('b220',RQ,'r_step','modbus_RTU_send (m_req m) (p_id p)','modbus_RTU_send (m_req m) 1','C95: the frame is addressed to slave 1')
B('b221',RQ,'r_step','QDone None => RRet FREE_QUEUE_EMPTY_ERROR','QDone None => RRet REQUEST_SEND_TO_QUEUE','C95: a refused request is reported as accepted')
B('b222',RQ,'r_step','push_step (c_queue c) (Some i) pc (mm_txq s)','push_step (c_queue c) (Some 0%nat) pc (mm_txq s)','C95: the wrong message is queued')
B('b223',RQ,'r_step','| _ => RPush i pc end, m_set_txq s q)','| _ => RPush i pc end, s)','C95: the push has no effect')
B('b224',RQ,'r_step','| RSend i =>\n      let* m := get_msg s i in\n      let* \'(st, r) := modbus_RTU_send (m_req m) (p_id p) in\n      let* s := put_msg s i (set_req m r) in','| RSend i =>\n      let* m := get_msg s i in\n      let* \'(st, r) := modbus_RTU_send (m_req m) (p_id p) in','C95: the frame built is dropped')
B('b225',RQ,'r_act','Ok (pc, mk_mconf s (mc_pc (snd k)), [])','Ok (pc, mk_mconf s None, [])','C95: the call disturbs the interrupted manager (aborts its call)')
B('b226',RQ,'r_step','QDone (Some i) => RGen i','QDone (Some i) => RPush i P52','C95: the request is queued before it is built')
B('b227',RQ,'p_run','p_run c prog k1 in Ok (k2, t1 ++ t2, (a, pc) :: rs)','p_run c prog k1 in Ok (k2, t2 ++ t1, (a, pc) :: rs)','C95: observations out of order')
B('b228','Model/QueueSteps.v','pop_step','Q99 r => let* l := aset (q_slots q) (q_tail q) None in Ok (Q100 r, set_slots q l)','Q99 r => Ok (Q100 r, q)','C95/C91: the slot is not cleared')
CB='Model/MasterCallback.v'
B('b229',CB,'g_bits_loop','let* m := get_msg s j in\n      let* byte','let* m := get_msg s 0 in\n      let* byte','C96: the answer is read from buffer 0, which a request made in the callback may use')
B('b230',CB,'call_back','let* \'(s, t) := cb_requests c (react x) s in Ok (s, MTOut (MoCb x) :: t)','let* \'(_, t) := cb_requests c (react x) s in Ok (s, MTOut (MoCb x) :: t)','C96: requests made in the callback are lost')
B('b231',CB,'g_regs_loop','let* \'(s, t\') := g_regs_loop n\' mk j slave_adr data_adr (i + 1) s in\n      Ok (s, t ++ t\')','let* \'(s, t\') := g_regs_loop n\' mk j slave_adr data_adr (i + 1) s in\n      Ok (s, t\' ++ t)','C96: values delivered in the wrong order')
B('b232',CB,'g_line','| M718 => let* \'(_, m) := cur_msg s in let* r := timeout_report m in let* \'(s, t) := call_back (TimeoutErr r) s in Ok (Some M900, s, t)','| M718 => let* \'(_, m) := cur_msg s in let* r := timeout_report m in let* \'(s, t) := call_back (TimeoutErr r) s in Ok (None, s, t)','C96: after a timeout callback the request is not finished')
B('b233',CB,'g_mapper','(FC_WRITE_MULTIPLE_COILS, g_report_write)','(FC_WRITE_MULTIPLE_COILS, g_update_master_data)','C96: no confirmation for written coils')
B('b234',CB,'g_read_slave_resp','if (ex : bool) then g_exception j s','if (ex : bool) then Ok (s, [])','C96: exceptions are not reported')
B('b235',CB,'cb_requests','Ok (s, MTEv (MReq a) :: map MTOut o ++ t)','Ok (s, MTEv (MReq a) :: t)','C96: the results of calls are lost')
BD='Model/Board.v'
B('b236',BD,'USART_GPIO_init','let b := set_IOPENR b (IOPENR b |\' GPIOAEN) in\n  let b := set_MODER b (MODER b &~ (MODE2 |\' MODE3 |\' MODE1)) in','let b := set_MODER b (MODER b &~ (MODE2 |\' MODE3 |\' MODE1)) in\n  let b := set_IOPENR b (IOPENR b |\' GPIOAEN) in','C97: pins cleared before the clock is on')
B('b237',BD,'USART_GPIO_init',"(MODE2 |' MODE3 |' MODE1)","(MODE2 |' MODE2 |' MODE1)",'C97: mode of PA3 not cleared')
B('b238',BD,'USART_module_config_b',"(APBENR1 b |' USART2EN)","(APBENR1 b |' TIM7EN)",'C97: USART clock off during its set-up')
B('b239',BD,'TIMER7_init_b',"NVIC_EnableIRQ TIM7_IRQn (NVIC_SetPriority TIM7_IRQn 10 b)","NVIC_EnableIRQ USART2_IRQn (NVIC_SetPriority TIM7_IRQn 10 b)",'C97: timer interrupt not enabled')
B('b240',BD,'TIMER7_init_b',"NVIC_SetPriority TIM7_IRQn 10","NVIC_SetPriority TIM7_IRQn 9",'C98: the timer handler interrupts the USART handler')
B('b241',BD,'prio_word',"(old &~ u32 (Z.shiftl 0xFF (BIT_SHIFT n)))","old",'C98: old priority not cleared')
B('b242',BD,'BIT_SHIFT',"Z.land (u32 n) 3 * 8","Z.land (u32 n) 1 * 8",'C98: priority of another interrupt changed')
B('b243',BD,'LED_off',"&~ OD5","&~ 0x21",'C99: another pin is switched off')
B('b244',BD,'update_LED',"LED_status =? 1","negb (LED_status =? 0)",'C99: LED on for other values')
B('b245',BD,'core_init_head',"NVIC_SetPriority SysTick_IRQn 3","NVIC_SetPriority SysTick_IRQn 1",'C98: the tick interrupts the drivers')
B('b246',BD,'LED_init',"(MODER b |' MODE5_0)","(MODER b |' MODE5)",'C99: PA5 is not an output')
B('b247',BD,'USART_GPIO_init',"(AFSEL2_0 |' AFSEL3_0 |' AFSEL1_0)","(AFSEL2_0 |' AFSEL3_0)",'C97: DE pin not connected')
SI='Model/SlaveInit.v'
B('b248',SI,'i_line','| Some I317 => i_set x (s_set_fe s CLEARED) I318','| Some I317 => i_set x s I318','C101: a frame error from before the call stays')
B('b249',SI,'i_line','| Some I311 => i_set x (s_set_id s id) I313','| Some I311 => i_set x s I313','C100/C101: the ID is not set')
B('b250',SI,'i_line','| Some I268 => i_set x (s_set_msg s (mk_msg (m_req m) (mk_rr true (rr_buf (m_resp m)) (rr_len (m_resp m))))) I252','| Some I268 => i_set x s I252','C100: the response buffer stays NULL')
B('b251',SI,'i_usart_tx','then let* s1 := i_event STxDone s in','then let* s1 := i_event ST35 s in','C100: the handler reports the end of a frame instead of the end of a transmission')
B('b252',SI,'i_line','| Some I291 => mk_isys s u (i_ue x) (i_nu x) (i_nt x) (mk_subs (b_tx b) (b_t15 b) true (b_fe b)) (Some I292)','| Some I291 => mk_isys s u (i_ue x) (i_nu x) (i_nt x) (mk_subs (b_tx b) true (b_t35 b) (b_fe b)) (Some I292)','C100: the timer callback stays NULL')
B('b253',SI,'i_line','| Some V77 => mk_isys s u (i_ue x) (i_nu x) true b (Some V78)','| Some V77 => mk_isys s u (i_ue x) (i_nu x) true b (Some I288)','C100: frame detection flag left set: a later first byte is reported as a frame error (re-initialisation)')
B('b254',SI,'i_line','| Some I318 => mk_isys (s_set_tx s CLEARED) u','| Some I318 => mk_isys (s_set_tx s SET) u','C100: a transmission appears completed')
B('b255',SI,'i_line','| Some I313 => i_set x (s_set_st s S_IDLE) I315','| Some I313 => i_set x s I315','C101: the state machine is not reset')
MI='Model/MasterInit.v'
B('b256',MI,'j_line','| Some J330 => Ok (j_set x (m_set_fe s CLEARED) J331)','| Some J330 => Ok (j_set x s J331)','C103: a frame error from before the call stays')
B('b257',MI,'j_line','| Some J315 => Ok (j_set x (m_set_txq s (modbus_queue_init (mm_txq s))) J316)','| Some J315 => Ok (j_set x s J316)','C103: pending requests are not forgotten')
B('b258',MI,'j_line','| Some J333 => Ok (j_set x (m_set_st s M_IDLE) J334)','| Some J333 => Ok (j_set x s J334)','C103: the state machine is not reset')
B('b259',MI,'j_line','| Some J335 => Ok (mk_minit (m_set_timer s 0) u','| Some J335 => Ok (mk_minit s u','C103: the response timer keeps running')
B('b260',MI,'j_line','| Some J314 => Ok (j_set x (m_set_free s (modbus_queue_init (mm_free s))) J315)','| Some J314 => Ok (j_set x s J315)','C103: the free queue is filled twice')
B('b261',MI,'j_act',"(if j_timer x =? 0 then 0 else j_timer x - 1)","(j_timer x - 1)",'C102: the application timer wraps below 0 during initialisation')
B('b262',MI,'j_usart_rx','match mm_rx s with\n      | None => UB','match mm_rx s with\n      | None => Ok (s, u, [])','C102 (refutation): a NULL receive buffer goes unnoticed')
B('b263',MI,'j_line',"(j_set x (m_set_free s q) J318)","(j_set x s J318)",'C102: the free queue stays empty')
B('b264',MI,'j_line',"(mk_jsubs (e_tx b) (e_t15 b) true (e_fe b)) (j_timer x) (Some J325)","(mk_jsubs false (e_t15 b) true (e_fe b)) (j_timer x) (Some J325)",'C102/C103: the transmission-complete callback is NULL')
B('b265',MI,'j_line',"Ok (mk_minit s (mk_uart (u_cur u) (u_last u) false (u_tdr u)","Ok (mk_minit s (mk_uart (u_last u + 1) (u_last u) false (u_tdr u)",'C103: the driver forgets the transmission in progress (a change of behaviour outside of the claims at rest)')
MH='Model/MasterHandlers.v'
B('b266',MH,'h_line',"match u_rdr u with Some _ => Some U125 | None => Some U135 end","match u_rdr u with Some _ => Some U125 | None => Some U149 end",'C104: without a received byte the transmitter is not looked at')
B('b267',MH,'h_line',"(u_det u) (u_tdr u) None (u_txeie u) (u_rtof u) (u_cen u) (u_uif u), [])\n            | Some _, None","(u_det u) (u_tdr u) (u_rdr u) (u_txeie u) (u_rtof u) (u_cen u) (u_uif u), [])\n            | Some _, None",'C104: RDR stays full after it is read')
B('b268',MH,'h_line',"u8 (rr_len (m_resp m) + 1)","u8 (rr_len (m_resp m))",'C104: the index of the receive buffer is not incremented')
B('b269',MH,'h_line',"if u_det u then U130 else U132","if u_det u then U132 else U130",'C104: the frame error is signalled in the wrong case')
B('b270',MH,'h_line',"(u_txeie u) (u_rtof u) true (u_uif u), [])","(u_txeie u) (u_rtof u) (u_cen u) (u_uif u), [])",'C104: the timer is not started')
B('b271',MH,'h_line',"u_cur u <? u_last u","u_cur u <=? u_last u",'C104: one byte too many is transmitted')
B('b272',MH,'h_line',"(u_rdr u) false (u_rtof u) (u_cen u) (u_uif u), [])","(u_rdr u) (u_txeie u) (u_rtof u) (u_cen u) (u_uif u), [])",'C104: the transmitter interrupt stays on')
B('b273',MH,'h_line',"if mm_sub (mc_s k) then U153 else U155","if mm_sub (mc_s k) then U155 else U153",'C104: the pause is not signalled')
B('b274',MH,'h_line',"mk_uart (u_cur u) (u_last u) true (u_tdr u)","mk_uart (u_cur u) (u_last u) false (u_tdr u)",'C104: the pause is not remembered')
B('b275',MH,'h_line',"(u_txeie u) false (u_cen u) (u_uif u), [])","(u_txeie u) (u_rtof u) (u_cen u) (u_uif u), [])",'C104: RTOF is not cleared')
B('b276',MH,'h_line',"Some V167, k, mk_uart (u_cur u) (u_last u) false","Some V167, k, mk_uart (u_cur u) (u_last u) (u_det u)",'C104: the pause flag survives the timer')
B('b277',MH,'h_line',"(u_rtof u) (u_cen u) false, [])","(u_rtof u) (u_cen u) (u_uif u), [])",'C104: UIF is not cleared')
B('b278',MH,'t_line',"if negb (mm_timer (mc_s k) =? 0) then","if true then",'C104: the response timer is decremented below 0')
B('b279',MH,'t_line',"(v - 1)","v",'C104: the response timer stands still')
B('b280',MH,'h_act',"v (u_rtof u) (u_cen u) (u_uif u)) (w_sub w)) true","v (u_rtof u) (u_cen u) (u_uif u)) (w_sub w)) (h_rxne h)",'C104: reception interrupts are not enabled')
B('b281',MH,'h_line',"Ok (Some U140, k, mk_uart (u_cur u + 1)","Ok (Some U140, k, mk_uart (u_cur u)",'C104: the same byte is transmitted again and again')
B('b282',MH,'h_line',"U140 => let* b := req_byte k (u_cur u) in","U140 => let* b := req_byte k (u_cur u + 1) in",'C104: the byte after the next one is transmitted')
B('b283',MH,'h_act',"HTick => Ok (if no_handler h then mk_hfw w (h_rxne h) None (Some K387) (h_cr1 h) else h, [])","HTick => Ok (if no_handler h then h else mk_hfw w (h_rxne h) (h_irq h) (Some K387) (h_cr1 h), [])",'C104: SysTick interrupts the driver, not the main program (and restarts itself)')
B('b284',MH,'h_line',"if mm_sub (mc_s k) then let* '(k1, t) := w_event c MTxDone k in Ok (Some U149, k1, u, t) else UB","Ok (Some U149, k, u, [])",'C104: completion is not signalled')
B('b285',MH,'h_act',"if at405 w then Some E96 else None","None",'C104: reception is never enabled')
B('b286',MH,'h_line',"| U128 => Ok (Some (if u_det u then U130 else U132), k, u, [])","| U128 => Ok (Some U132, k, u, [])",'C104: no frame error')
B('b287',MH,'h_act',"match h_irq h with\n                  | None => if u_uif u then","match h_irq h with\n                  | None => if h_pending h then",'C104: the timer handler is started by the USART interrupt')

SH='Model/SlaveHandlers.v'
B('b283b',MH,'h_act',"HTick => Ok (if no_handler h then mk_hfw w (h_rxne h) None (Some K387) (h_cr1 h) else h, [])","HTick => Ok (if no_handler h then h else mk_hfw w (h_rxne h) (h_irq h) (Some K387) (h_cr1 h), [])",'C104: SysTick interrupts the driver, not the main program (b283 again)')
B('b288',SH,'g_line',"Some _ => Some G119 | None => Some G129 end","Some _ => Some G119 | None => Some G143 end",'C105: without a received byte the transmitter is not looked at')
B('b289',SH,'g_line',"(u_tdr u) None (u_txeie u)","(u_tdr u) (u_rdr u) (u_txeie u)",'C105: RDR stays full after it is read')
B('b290',SH,'g_line',"u8 (rr_len r + 1)","u8 (rr_len r)",'C105: the index of the receive buffer is not incremented')
B('b291',SH,'g_line',"if u_det u then G124 else G126","if u_det u then G126 else G124",'C105: the frame error is signalled in the wrong case')
B('b292',SH,'g_line',"(u_txeie u) (u_rtof u) true (u_uif u), [])","(u_txeie u) (u_rtof u) (u_cen u) (u_uif u), [])",'C105: the timer is not started')
B('b293',SH,'g_line',"u_cur u <? u_last u","u_cur u <=? u_last u",'C105: one byte too many is transmitted')
B('b294',SH,'g_line',"(u_rdr u) false (u_rtof u)","(u_rdr u) (u_txeie u) (u_rtof u)",'C105: the transmitter interrupt stays on')
B('b295',SH,'g_line',"if s_sub (sc_s k) then G147 else G149","G149",'C105: the pause is not signalled')
B('b296',SH,'g_line',"(u_last u) true (u_tdr u)","(u_last u) (u_det u) (u_tdr u)",'C105: the pause is not remembered')
B('b297',SH,'g_line',"(u_txeie u) false (u_cen u) (u_uif u), [])","(u_txeie u) (u_rtof u) (u_cen u) (u_uif u), [])",'C105: RTOF is not cleared by the timer handler')
B('b298',SH,'g_line',"T158 => if s_sub (sc_s k) then let* k1 := y_event ST35 k","T158 => if s_sub (sc_s k) then let* k1 := y_event ST15 k",'C105: the timer signals the short pause')
B('b299',SH,'g_line',"G149 => Ok (None, k, mk_uart (u_cur u) (u_last u) true (u_tdr u) (u_rdr u) (u_txeie u) (u_rtof u)","G149 => Ok (None, k, mk_uart (u_cur u) (u_last u) true (u_tdr u) (u_rdr u) (u_txeie u) false",'C105: RTOF is cleared by the UART handler (the interrupt does not come again)')
B('b300',SH,'g_line',"G133 => Ok (Some G134, k, mk_uart (u_cur u + 1)","G133 => Ok (Some G134, k, mk_uart (u_cur u)",'C105: the same byte is transmitted again and again')
B('b301',SH,'g_line',"wr (m_req (s_msg s)) (rr_len (m_req (s_msg s))) (u8 b)","wr (m_req (s_msg s)) (rr_len (m_req (s_msg s)) + 1) (u8 b)",'C105: characters are stored one place too far')
B('b302',SH,'g_act',"GTimer, None => Ok (mk_gfw y (if u_uif (y_u y) then Some T156 else None), [])","GTimer, None => Ok (mk_gfw y (Some T156), [])",'C105: the timer handler starts without its interrupt')
B('b303',SH,'g_act',"GMain, None => let* '(y', t) := y_act c AMain y in Ok (mk_gfw y' None, t)","GMain, q => let* '(y', t) := y_act c AMain y in Ok (mk_gfw y' q, t)",'C105: the main program goes on while a handler runs')
B('b304',SH,'g_act',"GUsart, None => Ok (mk_gfw y (if usart_pending (y_lib y) (y_u y) then Some G116 else None), [])","GUsart, None => Ok (mk_gfw y (if usart_pending (y_lib y) (y_u y) then Some G129 else None), [])",'C105: the UART handler ignores received bytes')
B('b305',SH,'g_line',"G140 => if s_sub (sc_s k) then let* k1 := y_event STxDone k in Ok (Some G143, k1, u, [YLib (TEv STxDone)]) else UB","G140 => Ok (Some G143, k, u, [])",'C105: completion is not signalled')
B('b306',SH,'g_act',"GHw x, q => if is_hw x then let* '(y', t) := y_act c x y in Ok (mk_gfw y' q, t)","GHw x, q => if is_hw x then let* '(y', t) := y_act c x y in Ok (mk_gfw y' None, t)",'C105: a hardware event ends the handler')
B('b307',SH,'g_line',"T161 => Ok (None, k, mk_uart (u_cur u) (u_last u) (u_det u) (u_tdr u) (u_rdr u) (u_txeie u) (u_rtof u) (u_cen u) false, [])","T161 => Ok (None, k, u, [])",'C105: UIF is not cleared')
B('b308',SH,'g_line',"T159 => Ok (Some T160, k, mk_uart (u_cur u) (u_last u) false","T159 => Ok (Some T160, k, mk_uart (u_cur u) (u_last u) (u_det u)",'C105: the pause flag survives the timer')
B('b309',MH,'h_act',"(u_rdr u) v (u_rtof u)","(u_rdr u) (u_txeie u) (u_rtof u)",'C108/C104_refuted: the store of CR1 keeps what the handler wrote, so there is no race')
B('b310',MH,'h_act',"Some (E96s (u_txeie u))","Some (E96s true)",'C108: the store of CR1 always switches the transmitter interrupt on, not only when a handler ran in between')
B('b311',MH,'h_line',"(u_rdr u) false (u_rtof u) (u_cen u) (u_uif u), [])","(u_rdr u) true (u_rtof u) (u_cen u) (u_uif u), [])",'C108: the handler switches the transmitter interrupt on, one completion after the other')
B('b312',MH,'at405',"None, Some M405 => true","None, Some M406 => true",'C104: reception is enabled a line too late')
B('b313',MH,'h_act',"let* '(p', k', u', t) := h_line c p (w_lib w) u in Ok (mk_hfw (mk_mfw k' u' (w_sub w)) (h_rxne h) p' (h_tick h) (h_cr1 h), t)","let* '(p', k', u', t) := h_line c p (w_lib w) u in Ok (mk_hfw (mk_mfw k' u' (w_sub w)) (h_rxne h) p' (h_tick h) None, t)",'C104/C108: a handler makes the main program forget the store of CR1, reception is not enabled')
B('b314',MH,'h_act',"Some E96 => Ok (mk_hfw w (h_rxne h) None None (Some (E96s (u_txeie u))), [])","Some E96 => Ok (mk_hfw w (h_rxne h) None None (Some (E96s false)), [])",'C104/C108: the store of CR1 switches the transmitter interrupt off in mid-frame')
