-Q theories Verif
theories/Bits.v
theories/Spec.v
theories/M_Config.v
theories/M_Signals.v
theories/M_Predictor.v
theories/M_Difference.v
theories/M_Normalize.v
theories/M_Encode.v
theories/M_Merge.v
theories/M_I1.v
theories/M_Fifo.v
theories/M_Converter.v
theories/M_VBits.v
theories/M_I3.v
theories/M_Fix.v
theories/M_Markers.v
theories/M_Beta.v
theories/Spec_Core.v
theories/Spec_Beta.v
theories/P_Fifo.v
theories/P_Normalize.v
theories/P_Encode.v
theories/P_Merge.v
theories/P_Signals.v
theories/P_Predictor.v
theories/P_I1.v
theories/P_Tokens.v
theories/P_Converter.v
theories/P_VBits.v
theories/P_I3.v
theories/P_Decode.v
theories/P_Run.v
theories/P_Live.v
theories/P_Live2.v
theories/P_Fix.v
theories/P_Markers.v
theories/Props_Arith.v
theories/Props_Core.v
theories/Props_Live.v
theories/Props_Comp.v
theories/Props_Frame.v
theories/P_Pack.v
theories/P_Beta.v
theories/Props_Beta.v
theories/M_Micro.v
theories/Props_Micro.v
theories/M_AxiLite.v
theories/Spec_Axi.v
theories/P_AxiLite.v
theories/Props_Axi.v
theories/Props_Axi2.v
theories/Props_Dma.v
theories/M_Width.v
theories/Props_Width.v
theories/Props_B40.v
theories/M_SyncFifo.v
theories/P_SyncFifo.v
theories/Props_B32.v
theories/M_AxiHP.v
theories/Props_AxiHP.v
theories/Props_AxiHP2.v
theories/M_Misc.v
theories/Props_Misc.v
theories/M_Driver.v
theories/Props_Driver.v
theories/M_Top.v
theories/Props_Top.v
theories/Props_TopM.v
theories/M_FullAxi.v
theories/Props_FullAxi.v
theories/Props_FullAxi2.v
theories/P_Flush2.v
theories/Props_Flush2.v
theories/Spec_Flush.v
theories/P_Flush3.v
theories/Props_Flush3.v
theories/M_Lvds.v
theories/Props_Lvds.v
theories/M_Lj92.v
theories/Spec_Lj92.v
theories/P_Lj92.v
theories/P_Lj92b.v
theories/P_Lj92c.v
theories/P_Lj92d.v
theories/Props_Lj92.v
theories/Props_Lj92b.v
theories/M_Test.v
theories/Props_Test.v
theories/Props_Test2.v
theories/Props_Test3.v
theories/P_BetaLive.v
theories/Props_BetaLive.v
theories/M_Stream3.v
theories/Props_Stream3.v
theories/M_Bridge.v
theories/Props_Bridge.v
theories/Spec_P6.v
theories/M_Pred6.v
theories/P_Pred6.v
theories/P_Pred6b.v
theories/Props_Pred6.v
theories/Props_Pred6b.v
theories/M_Enc92.v
theories/P_Float.v
theories/P_Huff.v
theories/P_Huff2.v
theories/P_Huff3.v
theories/Props_Enc92.v
theories/P_Enc92.v
theories/P_Enc92b.v
theories/Props_Enc92b.v
theories/P_Enc92c.v
theories/Props_Enc92c.v
theories/Props_Enc92d.v
theories/Props_Enc92e.v
theories/Spec_Pn.v
theories/P_Open.v
theories/P_ScanN.v
theories/P_Back.v
theories/Props_ScanN.v
theories/Props_ScanN2.v
theories/P_Rob.v
theories/P_Rob2.v
theories/P_Rob3.v
theories/P_Rob4.v
theories/Props_Rob.v
theories/Props_Stable.v
theories/Props_MicroAxi.v
theories/Props_Any6.v
theories/Props_Lin.v
theories/P_LiveBound.v
theories/Props_LiveBound.v
theories/P_NoEnd.v
theories/Props_NoEnd.v
theories/P_Flush.v
theories/Props_Flush.v
theories/P_Stall.v
theories/Props_Stall.v
theories/M_Slow.v
theories/P_Slow.v
theories/P_Slow2.v
theories/P_Slow3.v
theories/P_Slow4.v
theories/Props_Slow.v
theories/P_Rate.v
theories/P_Rate2.v
theories/P_Rate3.v
theories/Spec_Rate.v
theories/P_Rate4.v
theories/P_Rate5.v
theories/Props_Rate.v
theories/P_Budget.v
theories/Props_Budget.v
theories/Props_Pred6n.v
theories/P_Deadline.v
theories/Props_Deadline.v
theories/P_RobS.v
theories/Props_SlowRob.v
theories/P_Delay.v
theories/Props_Delay.v
theories/P_Drain.v
theories/Props_Drain.v
theories/Spec_Time.v
theories/P_InTime.v
theories/Props_InTime.v
theories/Props_Wrap.v
theories/M_Heap.v
theories/Spec_Heap.v
theories/P_Heap.v
theories/P_Heap2.v
theories/Props_Heap.v
theories/V_Gen.v
theories/Spec_Verilog.v
theories/P_Verilog.v
theories/P_VerilogFx.v
theories/P_VerilogMid.v
theories/P_VerilogTop.v
theories/Props_Verilog.v
theories/Spec_VerilogCore.v
theories/P_VerilogCore.v
theories/V_Gen2.v
theories/Spec_Verilog2.v
theories/P_Verilog2.v
theories/Props_Verilog2.v
theories/Spec_Verilog3.v
theories/P_Verilog3.v
theories/Props_Verilog3.v
theories/V_Gen3.v
theories/Spec_Verilog4.v
theories/P_Verilog4.v
theories/Props_Verilog4.v
theories/Props_VerilogCore.v
theories/Props_VerilogStable.v
theories/Validation.v
