-Q theories Verif
theories/Base.v
theories/SchedModel.v
theories/SchedSpec.v
theories/SortProofs.v
theories/BootProofs.v
theories/SchedProofs.v
theories/StepProofs.v
theories/SchedThms.v
theories/BootThms.v
theories/HistThms.v
theories/PrioThms.v
theories/InitThms.v
theories/ExSched.v
theories/PropBoot.v
theories/PropDispatch.v
theories/PropTime.v
theories/SmpModel.v
theories/SmpSpec.v
theories/SmpBoot.v
theories/SmpProofs.v
theories/SmpInv.v
theories/SmpThms.v
theories/ExSmp.v
theories/PropSmp.v
theories/SpinModel.v
theories/SpinSpec.v
theories/SpinProofs.v
theories/SpinThms.v
theories/RaceModel.v
theories/RaceSpec.v
theories/RaceThms.v
theories/PropSpin.v
theories/IpcModel.v
theories/IpcSpec.v
theories/IpcLogic.v
theories/IpcAvoid.v
theories/MutexProofs.v
theories/MutexThms.v
theories/FutexProofs.v
theories/CondSilent.v
theories/CondSignal.v
theories/CondLogic.v
theories/CondThms.v
theories/CondWake.v
theories/CondOwn.v
theories/QueueProofs.v
theories/QueueThms.v
theories/QueueRace.v
theories/ExIpc.v
theories/PropLock.v
theories/PropCond.v
theories/PropQueue.v
theories/FifoModel.v
theories/FifoSpec.v
theories/FifoProofs.v
theories/FifoThms.v
theories/FifoAny.v
theories/PropFifo.v
theories/PortModel.v
theories/PortSpec.v
theories/PortProofs.v
theories/RngPeriod.v
theories/PropPort.v
theories/AsmModel.v
theories/AsmSpec.v
theories/AsmSym.v
theories/SysModel.v
theories/AsmProofs.v
theories/SysProofs.v
theories/PropAsm.v
theories/SpiModel.v
theories/SpiSpec.v
theories/SpiProofs.v
theories/SpiThms.v
theories/PropSpi.v
theories/FlashModel.v
theories/FlashSpec.v
theories/FlashProofs.v
theories/FlashProofs2.v
theories/FlashProofs3.v
theories/FlashProofs4.v
theories/FlashThms.v
theories/PropFlash.v
theories/Asm51Model.v
theories/Asm51Spec.v
theories/Asm51Proofs.v
theories/Asm51Thms.v
theories/PropAsm51.v
theories/GpioModel.v
theories/GpioSpec.v
theories/GpioProofs.v
theories/PropGpio.v
theories/TwiModel.v
theories/TwiSpec.v
theories/TwiProofs.v
theories/PropTwi.v
theories/EepromModel.v
theories/EepromSpec.v
theories/EepromProofs.v
theories/PropEeprom.v
theories/Asm28Model.v
theories/Asm28Spec.v
theories/Asm28Proofs.v
theories/PropAsm28.v
theories/IrqModel.v
theories/IrqSpec.v
theories/IrqProofs.v
theories/IrqCtlProofs.v
theories/PropIrq.v
theories/UartModel.v
theories/UartSpec.v
theories/UartProofs.v
theories/UartLinProofs.v
theories/PropUart.v
theories/UartCfgModel.v
theories/UartCfgSpec.v
theories/UartBaudProofs.v
theories/UartFrameProofs.v
theories/PropUartCfg.v
theories/IflashModel.v
theories/IflashSpec.v
theories/IflashProofs.v
theories/PropIflash.v
theories/TimerModel.v
theories/TimerSpec.v
theories/TimerProofs.v
theories/PropTimer.v
theories/OsModel.v
theories/OsSpec.v
theories/OsProofs.v
theories/PropOs.v
theories/PwmModel.v
theories/PwmSpec.v
theories/PwmProofs.v
theories/PropPwm.v
theories/WdModel.v
theories/WdSpec.v
theories/WdProofs.v
theories/PropWd.v
theories/CanModel.v
theories/CanSpec.v
theories/CanProofs.v
theories/CanProofs2.v
theories/CanProofs3.v
theories/CanProofs4.v
theories/CanProofs5.v
theories/CanProofs6.v
theories/CanProofs7.v
theories/PropCan.v
theories/AdcModel.v
theories/AdcSpec.v
theories/AdcProofs.v
theories/AdcProofs2.v
theories/AdcProofs3.v
theories/AdcProofs4.v
theories/AdcProofs5.v
theories/PropAdc.v
theories/ClockModel.v
theories/ClockSpec.v
theories/ClockProofs.v
theories/ClockProofs2.v
theories/ClockProofs3.v
theories/PropClock.v
theories/SiuClockModel.v
theories/SiuClockProofs.v
theories/PropSiuClock.v
theories/NuClockModel.v
theories/NuClockSpec.v
theories/NuClockProofs.v
theories/PropNuClock.v
theories/MpcClockModel.v
theories/MpcClockSpec.v
theories/MpcClockProofs.v
theories/PropMpcClock.v
theories/MiscModel.v
theories/MiscSpec.v
theories/MiscProofs.v
theories/PropMisc.v
theories/MuxModel.v
theories/MuxSpec.v
theories/MuxProofs.v
theories/PropMux.v
theories/DmaModel.v
theories/DmaSpec.v
theories/DmaProofs.v
theories/PropDma.v
