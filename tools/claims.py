claim('C01','proved','C01_start_order','picoRTOS.c; any configuration and registrations')
claim('C02','proved','C02_tick_dispatch','picoRTOS.c and picoRTOS-lite.c')
claim('C03','proved','C03_yield','')
claim('C04','proved','C04_strictly_descending','')
claim('C05','proved','C05_one_turn C05_no_compete','')
claim('C06','proved','C06_bounded_waiting','picoRTOS_priority_t not wider than picoRTOS_tick_t (true of all ports)')
claim('C07','partial','C07_alternation_partial C07_alternation_refuted','false at a wrap of the truncated tick when 2^pbits-1 is a multiple of the group size; proved everywhere else')
claim('C08','proved','C08_sleep_exact','')
claim('C09','proved','C09_sleep_until_exact C09_no_drift','')
claim('C10','partial','C10_late_partial C10_late_refuted','the code updates *ref only after more than CONFIG_DEADLOCK_COUNT consecutive misses; exact rule proved, documented rule refuted')
claim('C11','proved','C11_context_integrity','contexts are identified by their stack pointer')
claim('C12','proved','C12_overflow_stalls C12_tick_ok','')
claim('C13','proved','C13_no_stall','')
claim('C14','proved','C14_postpone','')
claim('C15','proved','C15_postpone_forgotten C15_tick_clears','')
claim('C16','proved','C16_kill_final','')
claim('C17','proved','C17_self_is_caller C17_self_not_nobody','')
claim('C18','proved','C18_get_tick','')
claim('C19','proved','C19_registration C19_otherwise_stalls C19_one_more','')
claim('C20','partial','C20_next_partial C20_next_lite C20_next_refuted','full on picoRTOS-lite; on picoRTOS.c false when the first registered priority is neither 0 nor shared')
claim('C21','partial','C21_last_partial C21_last_lite_partial C21_last_refuted C21_last_lite_refuted','')
claim('C22','partial','C22_start_writes_partial C22_start_writes_refuted','exact condition proved: out-of-bounds write iff two or more unused slots')
claim('C23','proved','C23_task_init_aligned','for line sizes that are a multiple of the stack cell (all ports but 64-bit simulators)')
claim('C24','partial','C24_min_size_partial C24_min_size_refuted','')
claim('C25','partial','C25_late_add_partial C25_late_add_refuted','')
claim('C26','proved','C26_idle_after_tick C26_idle_after_syscall','')
claim('C27','proved','C27_before_start','')
claim('C28','proved','C28_lite_boot C28_lite_self','')
claim('C53','proved','C53_watermarks','')
claim('C29','proved','C29_no_two_cores','')
claim('C30','proved','C30_affinity','')
claim('C31','proved','C31_tick_rounds','')
claim('C32','proved','C32_tick_dispatch','')
claim('C33','proved','C33_sleep_exact C33_sleep_until_exact C33_context_integrity C33_no_stall','')
claim('C34','partial','C34_postpone_partial C34_postpone_refuted','false: F_POSTPONED is shared by all cores, another core may use it up; proved when no other core does')
claim('C56','proved','C56_isolation','')
claim('C57','proved','C57_yield_next','')
claim('C58','proved','C58_kill_final','')
claim('C59','proved','C59_self_tick','')
claim('C60','proved','C60_registration C60_start_order C60_default_mask','')
claim('C61','proved','C61_overflow_stalls','')
claim('C35','proved','C35_exclusion C35_once C35_available','')
claim('C36','proved','C36_futex_lock C36_mutex_lock','')
claim('C37','proved','C37_exclusion','for nesting depths a size_t can count')
claim('C38','proved','C38_reentrant C38_available C38_unlock','for nesting depths a size_t can count')
claim('C39','proved','C39_stranger','')
claim('C40','proved','C40_released C40_owns_again','')
claim('C41','partial','C41_no_early_partial C41_signals_partial C41_refuted','false with broadcasts: a task that waits again before the last waiter has left returns at once; proved without broadcasts')
claim('C42','partial','C42_one_signal_partial C42_refuted','false: two signals sent before a waiter runs count as one; one signal is never lost')
claim('C43','partial','C43_broadcast_partial C43_refuted','false: a later signal overwrites the broadcast; proved when nobody signals')
claim('C44','proved','C44_fifo C44_serial_use C44_init C44_init_rejects','')
claim('C45','partial','C45_refuted C45_capacity_partial','false for every size: the capacity is count - 2 (0 for count = 1)')
claim('C46','partial','C46_refuted C46_any_interleaving_partial','false even with one reader and one writer: head.i is shared and used outside the lock')
claim('C47','proved','C47_in_order C47_read_complete C47_put_accepts','')
claim('C48','proved','C48_sec C48_msec C48_usec','where the product fits the arithmetic type; on 16-bit ports it easily does not (ex48_overflow)')
claim('C49','proved','C49_elapsed','')
claim('C50','partial','C50_cas_partial C50_solo C50_interrupts_back C50_rv32imac_refuted C50_m51xx_refuted C50_hcs08_refuted','false on rv32imac, MIPS m51xx and HCS08; proved on all other ports')
claim('C51','partial','C51_critical_partial C51_suspend_resume C51_refuted','false on ports whose atomics mask interrupts; proved on the others')
claim('C52','partial','C52_enable_partial C52_disable_partial C52_c28x_high_partial C52_refuted','disable is a no-op on Cortex-M and ch32v003; c28x indexes out of bounds for half of the interrupts')
claim('C54','partial','C54_write_partial C54_any_size C54_refuted','false for messages longer than the fifo; proved up to its capacity; for any size, what is sent of each message is a beginning of it (C54_any_size)')
claim('C55','proved','C55_read C55_nonzero C55_bijection C55_full_period C55_bytes','Every byte of a read is given explicitly; from any non-zero seed the state runs through all 2^32-1 non-zero words before it repeats.')
claim('C62','partial','C62_disable_e200z4_partial C62_enable_e200z7_partial C62_refuted','false for enable on e200z4 and disable on e200z7')
claim('C63','partial','C63_tick_partial C63_syscall_partial C63_mips_partial C63_mips_refuted C63_e200_refuted','false on MIPS (s6 and at are not saved) and on e200 when a reservation is held on return; proved on the other ports and for the other MIPS registers; c28x: C90; 8051: C81')
claim('C64','partial','C64_args_partial C64_mips_partial C64_args_refuted','false on STM8, proved on the other ports')
claim('C65','proved','C65_first_context','')
claim('C66','proved','C66_system','')
claim('C67','partial','C67_mutual_exclusion_partial C67_debug_partial C67_mutual_exclusion_refuted C67_free_lock_taken C67_sema_one_owner C67_sio_one_owner_refuted','proved as long as no arch_spin_lock gives up (always so in debug builds); false with NDEBUG for every CONFIG_DEADLOCK_COUNT, where a core that spun too long enters without the lock')
claim('C68','proved','C68_serializable C68_reachable','')
claim('C69','partial','C69_self_pinned_partial C69_self_refuted','proved for tasks bound to one core, false for tasks that may migrate')
claim('C70','partial','C70_one_load_partial C70_two_loads_partial C70_two_loads_refuted','false where the tick takes two loads (avr, 8051); proved for one load, and for two if no carry happens between them')
claim('C71','proved','C71_transfer C71_transfer_avr','for the drivers and widths listed in sound_driver, and spi-avr.c, spi-avr_usart.c')
claim('C72','partial','C72_complete_partial C72_complete_stm32h7 C72_complete_avr C72_refuted','ends iff the receive queue has room (exact for the drivers that write as long as they can, without hardware flow control)')
claim('C73','partial','C73_half_refuted C73_skip_refuted C73_bounds_refuted','false on PIC32MX/RA4 with 16-bit frames and SAM3X/SAMx7x with 8-bit frames; true elsewhere: C71')
claim('C74','proved','C74_erase','over a model of the chip; spi_xfer is abstract (C71)')
claim('C75','partial','C75_write_partial C75_erase_then_write C75_short_refuted','proved for writes of a page or more; false for less than a page: the rest of the page is programmed with a stale buffer')
claim('C76','partial','C76_read_refuted','false always: nothing is read, nothing is copied')
claim('C77','partial','C77_probe_s25fl1_partial C77_probe_sst26vf_partial C77_probe_sst26vf_refuted','proved on s25fl1 for all splits; on sst26vf only for one transfer, false for the others')
claim('C78','partial','C78_last_refuted C78_wrap_refuted','false: sst26vf refuses the end of the chip, s25fl1 accepts writes outside')
claim('C79','partial','C79_after_error_refuted C79_overrun_refuted','false')
claim('C80','proved','C80_quad_enable','')
claim('C81','proved','C81_tick C81_frame C81_call C81_isr','provided stack and context fit in internal RAM and in the stack of the task')
claim('C82','partial','C82_new_task_partial C82_starts C82_new_task_refuted C82_pointer_refuted','proved if r5 and r6 hold the address of the stack on entry of arch_save_first_context, which nothing ensures; false otherwise; false for an argument that does not point into external RAM')
claim('C83','partial','C83_independent_partial C83_independent_refuted','proved for the eight drivers that use set/clear/toggle registers; false for avr, nxp_siu, nxp_siul2, gd32vf103 and stm32h7xx, which load and store the output register')
claim('C84','partial','C84_calls_partial C84_toggle_refuted C84_read_refuted','proved for all drivers, except gpio_toggle of an inverted pin on ra4 (never toggles) and gpio_read on tinyavr (makes the pin an input)')
claim('C85','proved','C85_write','one master on the bus')
claim('C86','partial','C86_read_partial C86_stop_refuted C86_continue_refuted','proved with TWI_F_S and STOP always sent; false without TWI_F_P (STOP is sent anyway) and without TWI_F_S (the read never ends)')
claim('C87','partial','C87_absent_partial C87_nack_refuted','proved for a device that does not acknowledge its address; false for a byte that is not acknowledged: it counts, and so does the next one, which is never sent')
claim('C88','proved','C88_init C88_write C88_read C88_read_back','bytes that fit in the 512 of the device, a device that answers')
claim('C89','partial','C89_read_partial C89_write_refuted C89_absent_refuted','proved: eeprom_read ends with STOP; false: eeprom_write never sends STOP, and a missing device gives EAGAIN for ever')
claim('C90','partial','C90_tick_partial C90_syscall_partial C90_interrupt_partial C90_first_context C90_fpu_partial C90_fpu_swapped C90_fpu_refuted','proved without the FPU option; with it the two halves of R0-R7 come back exchanged')
claim('C91','partial','C91_arm C91_e200 C91_stm8 C91_hcs08_partial C91_8051_partial C91_avr_partial C91_avr_contained_partial C91_hcs08_refuted C91_8051_refuted C91_unhandled_refuted C91_avr_refuted C91_riscv_refuted C91_ch32v003_wrong C91_mips_partial C91_mips_refuted C91_c28x_wrong C91_c28x_refuted','proved on ARM, e200, STM8, HCS08 (but interrupt 37), 8051 (priv in xdata) and AVR (if the table had room); false on RISC-V, MIPS and c28x')
claim('C92','partial','C92_control C92_8051 C92_c28x_partial C92_enable_partial C92_mips_partial C92_disable_refuted C92_c28x_refuted C92_mips_refuted','proved on gd32vf103, e200z4, e200z7 and four 8051 machines, and c28x from INT1_9; on ARM and ch32v003 only enabling works; on MIPS only disabling. On AVR, STM8, HCS08 the calls do nothing, by design')
claim('C93','partial','C93_z4_partial C93_z7_partial C93_z4_refuted C93_z7_refuted C93_z7_on_refuted','e200z4: each call alone proved, but enabling forgets the cores of earlier calls; e200z7: enabling proved, disabling false; RP2040 does not support the calls')
claim('C94','partial','C94_write C94_again C94_room C94_linflexd_partial C94_linflexd_refuted','proved for ten of the eleven polled drivers; LINFlexD only for single bytes, false for more')
claim('C95','partial','C95_read C95_again_partial C95_waiting_partial C95_pl011_refuted C95_tinyavr_wedged C95_tinyavr_refuted C95_overrun_wedged C95_linflexd_partial C95_linflexd_write_refuted C95_linflexd_refuted','no loss, repetition or reordering proved for ten of eleven drivers; tinyAVR, PIC32MX and RA4 stop for good after an error; PL011 returns 0 for -EAGAIN; LINFlexD loses and repeats bytes')
claim('C96','partial','C96_ra4 C96_stm32_partial C96_samuart_partial C96_pic32_partial C96_avr_partial C96_samusart_partial C96_linflexd_partial C96_tinyavr_partial C96_gd32_partial C96_pl011_partial C96_sercom_partial C96_samuart_refuted C96_samusart_refuted C96_pic32_refuted C96_avr_refuted C96_tinyavr_refuted C96_gd32_refuted C96_pl011_refuted C96_pl011_alone C96_linflexd_refuted C96_stm32_refuted C96_ra4_refuted C96_sercom_refuted','each driver: the range where it holds (RA4: below 2^21 baud at any clock) and a counterexample outside; tinyAVR, GD32, PL011 and SERCOM are wrong at usual rates')
claim('C97','partial','C97_frames C97_accepts C97_samusart_accepts_refuted C97_gd32_partial C97_stm32_partial C97_gd32_refuted C97_stm32_refuted C97_samuart_partial C97_pic32_partial C97_samuart_refuted C97_pic32_refuted C97_back_on C97_off_refuted','proved for seven drivers; GD32 and STM32H7 lose a data bit to parity; SAM UART and PIC32 accept what they cannot do; four drivers leave the UART off when they refuse')
claim('C98','partial','C98_same5x_partial C98_same5x_refuted C98_same5x_locked_refuted C98_probe_partial C98_probe_refuted C98_eefc_wrong C98_eefc_refuted C98_gd32_partial C98_gd32_refuted','SAME5x erases 16 units for one; EEFC always erases the first 8192 bytes; GD32 right until something was written; flash-pic32mx.c does not compile and is not modelled')
claim('C99','partial','C99_same5x_partial C99_same5x_refuted C99_eefc_wrong C99_eefc_refuted C99_gd32_partial C99_gd32_after_erase C99_gd32_refuted','SAME5x right for buffers that start on a page or end before the second page boundary, false otherwise; EEFC always programs the first page; GD32 right until something was erased, if the flash is aliased at 0')
claim('C100','partial','C100_read C100_write_partial C100_erase_partial C100_same_byte C100_open_refuted C100_interrupt_refuted','reading proved; writing and erasing proved when no write is under way and no interrupt comes in between, false otherwise')
claim('C101','partial','C101_systick_partial C101_systick_refuted C101_stk_timer2 C101_rp2040_partial C101_rp2040_refuted C101_avr_partial C101_avr_refuted C101_attiny88 C101_rtc C101_awu_partial C101_awu_refuted C101_wkt C101_mcs51_partial C101_cy7c_partial C101_8051_refuted C101_stc12 C101_dec C101_mtim_partial C101_mtim_refuted C101_hcs08_rtc_partial C101_hcs08_rtc_refuted C101_compare','exact on ch32v003, c28x and the compare timers; others up to what their counters hold; no tick at all on AVR beyond 2^18 clocks; HCS08 two clocks too long')
claim('C102','partial','C102_compare C102_rv32_partial C102_rv32_refuted C102_rv32_stops C102_rv32_carry C102_rv32_start_partial C102_rv32_start_refuted C102_reload','proved on MIPS and STM and for self-reloading timers; on rv32imac false when a tick falls on a multiple of 2^32, where ticks stop for 2^32 counts')
claim('C103','partial','C103_compare_refuted C103_rv32 C103_reload_refuted C103_arm_suspend C103_arm_refuted','proved on rv32imac; on MIPS and STM ticks stop for 2^32 counts, self-reloading timers lose ticks, ARM loses the time suspended')
claim('C104','partial','C104_delay_partial C104_delay_refuted C104_gd32_partial C104_8051_partial C104_rtc_refuted','up to 2^32 rounds of the loop and from 1 MHz; false beyond, and on tinyAVR; the cycles of a round are an assumption')
claim('C105','proved','C105_futex C105_mutex C105_scheduler','')
claim('C106','proved','C106_patience','')
claim('C107','proved','C107_wakes C107_takes','')
claim('C108','partial','C108_refuted','false: there is no priority inheritance, a task in between keeps the holder from running for as long as it likes')
claim('C109','partial','C109_table C109_tc C109_avr_partial C109_avr_refuted C109_gd32_wrong C109_emios_partial C109_emios_refuted','false on AVR for the divider 256, on GD32 always, on eMIOS from the second setup')
claim('C110','partial','C110_period_partial C110_accepts_partial C110_accepts_refuted C110_refused C110_refused_refuted C110_gd32_wrong C110_range_refuted C110_mhz_refuted C110_overflow_refuted C110_dual_refuted C110_twice_refuted','holds for a whole number of MHz, counters that go one way and periods that fit; each condition is needed; RP2040 only the first time')
claim('C111','partial','C111_duty_partial C111_monotone C111_full_refuted C111_full_x7 C111_overflow_refuted','PWM_DUTY_CYCLE_MAX is never 100 % except on SAM X7x; overflow beyond 65535 counts')
claim('C112','partial','C112_duty_partial C112_duty_same5x_refuted C112_duty_avr_refuted C112_period_partial C112_period_wrong C112_period_refuted','SAM E5x in 16 and 32 bits, AVR with OCRnA and all drivers that keep ncycles in the output are refuted')
claim('C113','partial','C113_start C113_stop C113_keep C113_others_partial C113_others_refuted','pwm_stop stops all outputs of the timer except on GD32, PIC32 and tinyAVR')
claim('C114','partial','C114_period_sam3x_partial C114_period_sam3x_refuted C114_period_emios_partial C114_period_emios_refuted C114_period_rp2040_partial C114_duty_sam3x_partial C114_rail_sam3x C114_duty_sam3x_refuted C114_duty_emios_partial C114_duty_emios_refuted C114_duty_rp2040_partial C114_duty_rp2040_refuted','true for small counts; 32-bit products overflow, integer division first on SAM3X')
claim('C115','partial','C115_timeout_partial C115_fine C115_accepts_partial C115_atmel_refuted C115_atmel_ub C115_sam3x_wrong C115_sam3x_complement_wrong C115_avr_refuted C115_fwdgt_refuted C115_pic32_refuted C115_rp2040_refuted C115_rp2040_mhz_refuted C115_iwdg_refuted C115_f28_wrong','holds under the conditions ready and suits of WdSpec.v; each is shown to be needed; SAM3X never')
claim('C116','partial','C116_error_partial C116_same5x_refuted C116_iwdg_refuted','false on SAM E5x, and on STM32 when the registers stay busy')
claim('C117','partial','C117_stop_partial C117_atmel_setup C117_stop_refuted C117_avr_refuted C117_avr_wdrf_refuted','holds on PIC32, RP2040, SAM E5x, tinyAVR; elsewhere wd_stop returns 0 and does nothing')
claim('C118','proved','C118_feed C118_alive C118_bites C118_loaded','')
claim('C119','partial','C119_window_partial C119_same5x_refuted C119_pic32_refuted C119_f28_wrong','for the first setup; the window mode is never switched off on SAM E5x and PIC32')
claim('C120','partial','C120_sam3x_partial C120_flexcan C120_dcan_partial C120_mcan C120_refused C120_sam3x_ext_refuted C120_sam3x_order_wrong C120_mcan_id_refuted C120_c28x_refuted','SAM3X: 11-bit identifiers, and only with the byte order the driver assumes; DCAN: not on C28x; M_CAN and FlexCAN: identifiers below 2^29')
claim('C121','partial','C121_sam3x_partial C121_flexcan_partial C121_dcan_partial C121_mcan C121_progress C121_overflow_refuted C121_flexcan_empty_refuted C121_dcan_id_refuted C121_ambiguous_refuted','buffers of 8 bytes; FlexCAN drops empty frames; DCAN gets the identifier wrong with several filters')
claim('C122','partial','C122_sam3x_partial C122_mcan C122_flexcan_partial C122_dcan_partial C122_mask_refuted','holds on M_CAN, and on SAM3X for 11-bit identifiers; the masks are ignored on FlexCAN and DCAN')
claim('C123','partial','C123_sam3x C123_flexcan C123_mcan C123_dcan_partial C123_setup C123_dcan_refuted C123_failed_setup_refuted C123_overflow_refuted','rates below 2^32 over the largest prescaler; DCAN with prescalers up to 32; a failed setup stops the controller')
claim('C124','partial','C124_sam3x_partial C124_flexcan_partial C124_dcan_partial C124_sam3x_setup_refuted C124_none_refuted C124_flexcan_init_refuted','after one setup with at least one transmit mailbox')
claim('C125','partial','C125_order C125_full_refuted','order holds always; a FIFO that was once full is never read again')
claim('C126','proved','C126_recovery C126_stable','')
claim('C127','partial','C127_scaling_partial C127_identity C127_divider_refuted C127_overflow_refuted C127_negative_refuted','for settings whose products fit an int; a divider of 0 is accepted')
claim('C128','partial','C128_seq_partial C128_avr_mux_partial C128_avr_mux_refuted C128_two_tasks_refuted C128_auto_refuted C128_scan C128_ra4_fresh C128_stale_refuted C128_sam3x_refuted','AVR, tinyAVR, RP2040, SAME5x: one read at a time; NXP, AFEC, PIC32: own channel always, but values may be older than the request; RA4: holds')
claim('C129','partial','C129_seq_partial C129_scan_partial C129_ra4_wrong C129_nxp_wrong C129_same5x_refuted','single conversions; the continuous modes of RA4 and NXP never give data')
claim('C130','partial','C130_trigger_partial C130_accepts C130_trigger_refuted C130_mode_partial C130_mode_wrong C130_mode_refuted','trigger and sensitivity of the own channel are right, other triggers in the same register are cleared, input modes are never set')
claim('C131','partial','C131_tiny_partial C131_tiny_accepts C131_tiny_refuted C131_afec_partial C131_afec_refuted C131_protect_wrong','tinyAVR below 257 times the clock asked for, may be faster by half; AFEC from 20 MHz')
claim('C132','partial','C132_slots C132_init C132_read_partial C132_count_refuted C132_trigger_partial C132_trigger_refuted C132_intflg_refuted','the number returned is the index of the slot after the last, undefined from slot 14 on')
claim('C133','partial','C133_sequence C133_full C133_values_partial C133_progress C133_twice_refuted C133_mask_refuted C133_reinit_refuted C133_smp_partial C133_smp_refuted C133_res_partial C133_res_refuted','from cleared memory and registers; a value can be given twice')
claim('C134','partial','C134_mpc574_partial C134_mpc574_s40_wrong C134_mpc574_refuted C134_mpc574_again_refuted C134_numicro_partial C134_numicro_trim_wrong C134_numicro_pof_wrong C134_numicro_eclk_wrong C134_numicro_again_refuted C134_siu_partial C134_siu_refuted C134_siu_lock_wrong C134_rp2040_partial C134_rp2040_refuted C134_rp2040_rtc_refuted C134_rp2040_div_refuted C134_rp2040_vco_refuted C134_f28_partial C134_f28_refuted C134_f28_intosc_refuted C134_pmc_partial C134_pmc_upll_refuted C134_pmc_stale_refuted C134_sam3x_partial C134_sam3x_refuted C134_sam3x_stale_refuted C134_pic32_partial C134_pic32_stale_refuted C134_pic32_vco_refuted C134_gd32_partial C134_gd32_mul_refuted C134_gd32_irc_refuted C134_gd32_adc_refuted C134_ra4_partial C134_ra4_refuted C134_ra4_iwdt_wrong C134_same5x_partial C134_same5x_dpll_partial C134_same5x_div_refuted C134_same5x_ref_refuted C134_same5x_stale_refuted C134_tiny_partial C134_tiny_refuted C134_cy7_wrong','each family within stated settings, each limit with the setting that shows it')
claim('C135','partial','C135_numicro C135_mpc574_partial C135_mpc574_zero_ub C135_pmc_partial C135_pmc_refuted C135_rp2040_refuted C135_pic32_div_refuted C135_pic32_refuted C135_same5x_refuted','ATSAMV71 as long as plla * diva fits 32 bits; missing: completeness of the RP2040 and PIC32 searches beyond what C134 accepts')
claim('C136','partial','C136_others C136_accepts C136_pin_partial C136_history_partial C136_same5x_gpio_refuted C136_same5x_pull_wrong C136_siul2_refuted C136_pio_disable_wrong','other pins and acceptance: complete; the pin itself: not for SAME5x gpios and pulls, SIUL2 inputs that were outputs and outputs that were analog, and PIO_DISABLE')
claim('C137','partial','C137_accepts C137_units_partial C137_copy_partial C137_done_partial C137_starts_partial C137_unstarted_refuted C137_same5x_one_refuted C137_gd32_word_refuted C137_three_wrong C137_stm32_zero_ub C137_gd32_count_wrong C137_rest_wrong C137_rp2040_pace_refuted C137_stm32_circ_refuted C137_edma_done_wrong C137_rp2040_once_partial C137_rp2040_twice_refuted','units, copies and done: for transfers within the counters, of whole units the bus has (not words on GD32); start: RP2040 and eDMA; the rest is false of the code, as the refuting theorems show')
claim('C138','partial','C138_reset_partial C138_reset_init C138_tasks_partial C138_tasks_wrong C138_dmamux C138_matrix_partial C138_matrix_refuted C138_can_base','one caller at a time; an interleaved load and store loses the update of the other task (C138_tasks_wrong); the last master and slave cannot be set (C138_matrix_refuted)')
