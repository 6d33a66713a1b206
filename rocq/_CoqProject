-Q theories Verif

theories/Base.v
theories/Conformance.v
theories/D_Adc.v
theories/D_AdcIl.v
theories/D_Chain.v
theories/D_Containers.v
theories/D_Core0.v
theories/D_Core1.v
theories/D_Core1Adc.v
theories/D_Ctrl.v
theories/D_Host.v
theories/D_HostIrq.v
theories/D_Message.v
theories/D_Tx.v
theories/D_TxClk.v
theories/D_Uart.v
theories/D_UartPio.v
theories/M_Adc.v
theories/M_AdcIl.v
theories/M_AdcReset.v
theories/M_BitRef.v
theories/M_Clock.v
theories/M_Core0.v
theories/M_Core0Il.v
theories/M_Core1.v
theories/M_Dma.v
theories/M_Dsp.v
theories/M_Fifo.v
theories/M_HostIrq.v
theories/M_HostUart.v
theories/M_Led.v
theories/M_LedIl.v
theories/M_Message.v
theories/M_Pio.v
theories/M_ShiftReg.v
theories/M_Standalone.v
theories/M_System.v
theories/M_Tx.v
theories/M_TxClk.v
theories/M_TxIl.v
theories/M_Uart.v
theories/P_Adc.v
theories/P_AdcIl.v
theories/P_AdcReset.v
theories/P_AnaLine.v
theories/P_AnaPulse.v
theories/P_AnaTrain.v
theories/P_Analog.v
theories/P_Chain.v
theories/P_Clock.v
theories/P_Comment.v
theories/P_Containers.v
theories/P_Core0.v
theories/P_Core0Answer.v
theories/P_Core0Bus.v
theories/P_Core0Busy.v
theories/P_Core0Cut.v
theories/P_Core0Fail.v
theories/P_Core0Feed.v
theories/P_Core0Il.v
theories/P_Core0Led.v
theories/P_Core0Live.v
theories/P_Core0Loop.v
theories/P_Core0Main.v
theories/P_Core0Run.v
theories/P_Core0Rx.v
theories/P_Core0Woken.v
theories/P_Core1.v
theories/P_Core1Adc.v
theories/P_Core1Chain.v
theories/P_Crc.v
theories/P_Ctrl.v
theories/P_CtrlProps.v
theories/P_Dma.v
theories/P_Dsp.v
theories/P_DspAux.v
theories/P_Front.v
theories/P_FrontAdc.v
theories/P_FrontChar.v
theories/P_FrontDc.v
theories/P_FrontLine.v
theories/P_FrontPulse.v
theories/P_Host.v
theories/P_HostIrq.v
theories/P_HostProps.v
theories/P_Led.v
theories/P_LedIl.v
theories/P_LineLog.v
theories/P_Message.v
theories/P_MessageCalls.v
theories/P_MessageFields.v
theories/P_MessageNum.v
theories/P_MessageParse.v
theories/P_ModemHost.v
theories/P_ModemLine.v
theories/P_Noise.v
theories/P_NoiseChar.v
theories/P_NoiseDet.v
theories/P_NoiseRun.v
theories/P_Pio.v
theories/P_PioRate.v
theories/P_PioTc.v
theories/P_PioTime.v
theories/P_Recover.v
theories/P_Restart.v
theories/P_Since.v
theories/P_Slow.v
theories/P_SlowChar.v
theories/P_SlowCut.v
theories/P_SlowDet.v
theories/P_SlowOwn.v
theories/P_SlowRecover.v
theories/P_SlowRun.v
theories/P_SysQuiet.v
theories/P_SysTime.v
theories/P_System.v
theories/P_SystemAnalog.v
theories/P_SystemAnswer.v
theories/P_SystemLine.v
theories/P_SystemRx.v
theories/P_SystemTimed.v
theories/P_Two.v
theories/P_Tx.v
theories/P_TxClk.v
theories/P_TxClkEcho.v
theories/P_TxClkRun.v
theories/P_TxClkTerm.v
theories/P_TxDma.v
theories/P_TxDone.v
theories/P_TxHist.v
theories/P_TxHw.v
theories/P_TxIl.v
theories/P_TxLive.v
theories/P_TxRun.v
theories/P_TypedLine.v
theories/P_Uart.v
theories/P_UartErr.v
theories/P_UartModes.v
theories/P_UartPio.v
theories/P_UartPrint.v
theories/P_UartRun.v
theories/S_Adc.v
theories/S_AdcIl.v
theories/S_AdcReset.v
theories/S_Analog.v
theories/S_Answer.v
theories/S_Clock.v
theories/S_Containers.v
theories/S_Core0.v
theories/S_Core0Il.v
theories/S_Core0Led.v
theories/S_Core1.v
theories/S_Crc.v
theories/S_Ctrl.v
theories/S_Dma.v
theories/S_Dsp.v
theories/S_Front.v
theories/S_Host.v
theories/S_Led.v
theories/S_LedIl.v
theories/S_Line.v
theories/S_LineModes.v
theories/S_Loop.v
theories/S_Message.v
theories/S_ModemHost.v
theories/S_ModemLine.v
theories/S_Noise.v
theories/S_Pio.v
theories/S_PioRate.v
theories/S_PioTime.v
theories/S_Restart.v
theories/S_Slow.v
theories/S_SysTime.v
theories/S_System.v
theories/S_Two.v
theories/S_Tx.v
theories/S_TxDma.v
theories/S_TxDone.v
theories/S_TxHw.v
theories/S_TxIl.v
theories/S_TypedLine.v
theories/S_UartPio.v
theories/T_Adc.v
theories/T_AdcIl.v
theories/T_AdcReset.v
theories/T_Analog.v
theories/T_Answer.v
theories/T_Chain.v
theories/T_Comment.v
theories/T_Containers.v
theories/T_Core0.v
theories/T_Core0Bus.v
theories/T_Core0Il.v
theories/T_Core0Led.v
theories/T_Core1.v
theories/T_Ctrl.v
theories/T_Dma.v
theories/T_Dsp.v
theories/T_DspAux.v
theories/T_Front.v
theories/T_Host.v
theories/T_Led.v
theories/T_LedIl.v
theories/T_Live.v
theories/T_LiveSlow.v
theories/T_Message.v
theories/T_ModemHost.v
theories/T_Noise.v
theories/T_Pio.v
theories/T_PioRate.v
theories/T_PioTime.v
theories/T_Recover.v
theories/T_Restart.v
theories/T_Slow.v
theories/T_System.v
theories/T_SystemAnalog.v
theories/T_SystemAnswer.v
theories/T_SystemLine.v
theories/T_SystemTimed.v
theories/T_Two.v
theories/T_Tx.v
theories/T_TxClk.v
theories/T_TxDma.v
theories/T_TxDone.v
theories/T_TxHw.v
theories/T_TxIl.v
theories/T_Uart.v
theories/T_UartModes.v
theories/T_UartPio.v
theories/T_UartPrint.v
