-Q theories Verif
theories/Base.v
theories/Bits.v
theories/Telegram_Model.v
theories/Telegram_Spec.v
theories/Telegram_Proofs.v
theories/Telegram_Props.v
theories/TL4_Model.v
theories/TL4_Spec.v
theories/TL4_Proofs.v
theories/TL4_Inv.v
theories/TL4_Step.v
theories/TL4_Theorems.v
theories/TL4_Events.v
theories/TL4_Loop.v
theories/TL4_Props.v
theories/CRC_Model.v
theories/CRC_Spec.v
theories/CRC_Proofs.v
theories/CRC_Props.v
theories/Boot_Model.v
theories/Boot_Spec.v
theories/Boot_Proofs.v
theories/Boot_Theorems.v
theories/Boot_Dec.v
theories/Boot_Props.v
theories/Util_Model.v
theories/Util_Spec.v
theories/Util_Proofs.v
theories/Util_Props.v
theories/Text_Model.v
theories/Text_Spec.v
theories/Text_Proofs.v
theories/Text_Props.v
theories/Serial_Model.v
theories/Serial_Spec.v
theories/Serial_Proofs.v
theories/Serial_Props.v
theories/DPT9_Model.v
theories/DPT9_Spec.v
theories/DPT9_Proofs.v
theories/DPT9_Props.v
theories/OneWire_Model.v
theories/OneWire_Spec.v
theories/OneWire_Proofs.v
theories/OneWire_Props.v
theories/RTC_Model.v
theories/RTC_Spec.v
theories/RTC_Proofs.v
theories/RTC_Props.v
theories/ComObj_Model.v
theories/ComObj_Spec.v
theories/ComObj_Proofs.v
theories/ComObj_Values.v
theories/ComObj_Send.v
theories/ComObj_Next.v
theories/ComObj_Props.v
theories/Rate_Model.v
theories/Rate_Spec.v
theories/Rate_Props.v
theories/Eeprom_Model.v
theories/Eeprom_Spec.v
theories/Eeprom_Proofs.v
theories/Eeprom_Props.v
theories/Mapper_Model.v
theories/Mapper_Spec.v
theories/Mapper_Proofs.v
theories/Mapper_Props.v
theories/MemReq_Model.v
theories/MemReq_Spec.v
theories/MemReq_Proofs.v
theories/MemReq_Op.v
theories/MemReq_Buf.v
theories/MemReq_Props.v
theories/Prop_Model.v
theories/Prop_Spec.v
theories/Prop_Proofs.v
theories/Prop_Load.v
theories/Prop_Write.v
theories/Prop_Props.v
theories/Device_Model.v
theories/Device_Spec.v
theories/Device_TL.v
theories/Device_Status.v
theories/Device_Proofs.v
theories/Device_Wf.v
theories/Device_Steps.v
theories/Device_Save.v
theories/Device_Ex.v
theories/Device_Props.v
theories/Bus_Model.v
theories/Bus_Spec.v
theories/Bus_Frame.v
theories/Bus_Inv.v
theories/Bus_Recv.v
theories/Bus_Handle.v
theories/Bus_Handle2.v
theories/Bus_Send.v
theories/Bus_Steps.v
theories/Bus_Hist.v
theories/Bus_Pos.v
theories/Bus_Live.v
theories/Bus_Ex.v
theories/Bus_Props.v
theories/Bus_BitSpec.v
theories/Bus_Bits.v
theories/Bus_Wave.v
theories/Bus_BitProps.v
theories/Device_Bytes.v
theories/Device_Spec2.v
theories/Device_Spec3.v
theories/Device_Refine.v
theories/Device_Refine2.v
theories/Device_Client.v
theories/Device_Restart.v
theories/Device_Props2.v
theories/Device_EeWrite.v
theories/Device_Spec4.v
theories/Device_Keep.v
theories/Device_Props3.v
theories/Device_Spec5.v
theories/Device_Answer.v
theories/Device_Props4.v
theories/Node_Model.v
theories/Node_Spec.v
theories/Node_Com.v
theories/Node_Proofs.v
theories/Node_Pass.v
theories/Node_Pass2.v
theories/Node_Hist.v
theories/Node_Rate.v
theories/Node_Ex.v
theories/Node_Props.v
theories/Net_Spec.v
theories/Net_Proofs.v
theories/Net_Props.v
theories/SysB_Model.v
theories/SysB_Spec.v
theories/SysB_Proofs.v
theories/SysB_Answer.v
theories/SysB_Props.v
theories/SysBObj_Model.v
theories/SysBObj_Spec.v
theories/SysBObj_Proofs.v
theories/SysBObj_Send.v
theories/SysBObj_Props.v
theories/Bus_ArbSpec.v
theories/Bus_Arb.v
theories/Bus_ArbProps.v
theories/Bus_Out.v
theories/Bus_OutSpec.v
theories/Bus_OutProps.v
theories/Bim_Model.v
theories/Bim_Spec.v
theories/Bim_Proofs.v
theories/Bim_Props.v
theories/Device_Spec6.v
theories/Device_Conn.v
theories/Device_Talk.v
theories/Device_Props5.v
theories/Dht_Model.v
theories/Dht_Spec.v
theories/Dht_Proofs.v
theories/Dht_Props.v
theories/Ds18_Model.v
theories/Ds18_Spec.v
theories/Ds18_Proofs.v
theories/Ds18_Props.v
theories/I2c_Model.v
theories/I2c_Spec.v
theories/I2c_Proofs.v
theories/I2c_Props.v
theories/Timer_Model.v
theories/Timer_Spec.v
theories/Timer_Proofs.v
theories/Timer_Props.v
theories/I2c_Det.v
theories/Sht_Model.v
theories/Sht_Spec.v
theories/Sht_Proofs.v
theories/Sht_Proofs2.v
theories/Sht_Proofs3.v
theories/Sht_Props.v
theories/Sgp_Props.v
theories/Ds_Model.v
theories/Ds_Spec.v
theories/Ds_Proofs.v
theories/Ds_Search.v
theories/Ds_Props.v
theories/Pin_Model.v
theories/Pin_Spec.v
theories/Pin_Proofs.v
theories/Pin_Effects.v
theories/Pin_Props.v
theories/Adc_Model.v
theories/Adc_Spec.v
theories/Adc_Proofs.v
theories/Adc_Props.v
theories/Spi_Model.v
theories/Spi_Spec.v
theories/Spi_Proofs.v
theories/Spi_Block.v
theories/Spi_Calls.v
theories/Spi_Sync.v
theories/Spi_Settings.v
theories/Spi_Props.v
theories/Iap_Model.v
theories/Iap_Spec.v
theories/Iap_Proofs.v
theories/Iap_Props.v
theories/Wire_Model.v
theories/Wire_Spec.v
theories/Wire_Proofs.v
theories/Wire_Bytes.v
theories/Wire_Props.v
theories/Ds18Wire_Model.v
theories/Ds18Wire_Spec.v
theories/Ds18Wire_Proofs.v
theories/Ds18Wire_All.v
theories/Ds18Wire_Props.v
theories/U8g_Model.v
theories/U8g_Spec.v
theories/U8g_Proofs.v
theories/U8g_Props.v
theories/U8gShape_Spec.v
theories/U8gRect_Proofs.v
theories/U8gRect_Props.v
theories/U8gDraw_Model.v
theories/U8gDraw_Spec.v
theories/U8gLine_Proofs.v
theories/U8gLine_Props.v
theories/U8gCircle_Proofs.v
theories/U8gRound_Proofs.v
theories/U8gCircle_Props.v
theories/U8gRot_Model.v
theories/U8gRot_Spec.v
theories/U8gRot_Proofs.v
theories/U8gRot_Props.v
theories/U8gPaint_Spec.v
theories/U8gPaint_Proofs.v
theories/U8gPaint_Props.v
theories/Blu_Model.v
theories/Blu_Spec.v
theories/Blu_Proofs.v
theories/Blu_Props.v
theories/Bh_Model.v
theories/Bh_Spec.v
theories/Bh_Proofs.v
theories/Bh_Props.v
theories/Ccs_Model.v
theories/Ccs_Spec.v
theories/Ccs_Proofs.v
theories/Ccs_Props.v
theories/Sht1_Model.v
theories/Sht1_Spec.v
theories/Sht1_Proofs.v
theories/Sht1_Props.v
theories/Dogs_Model.v
theories/Dogs_Spec.v
theories/Dogs_Proofs.v
theories/Dogs_Props.v
theories/Slv_Model.v
theories/Slv_Spec.v
theories/Slv_Proofs.v
theories/Slv_Safe.v
theories/Slv_Props.v
theories/BootTel_Model.v
theories/BootTel_Spec.v
theories/BootTel_Proofs.v
theories/BootTel_Props.v
theories/Flt_Model.v
theories/Flt_Spec.v
theories/Flt_Proofs.v
theories/Flt_Props.v
theories/Sfc_Model.v
theories/Sfc_Spec.v
theories/Sfc_Proofs.v
theories/Sfc_Props.v
theories/Gas_Model.v
theories/Gas_Spec.v
theories/Gas_Proofs.v
theories/Gas_Proofs2.v
theories/Gas_Proofs3.v
theories/Gas_Props.v
theories/Baud_Model.v
theories/Baud_Spec.v
theories/Baud_Props.v
theories/Ptr_Model.v
theories/Ptr_Props.v
theories/Jump_Model.v
theories/Jump_Props.v
theories/Font_Model.v
theories/Font_Spec.v
theories/Font_Proofs.v
theories/Font_Props.v
theories/FontDir_Model.v
theories/FontDir_Spec.v
theories/FontDir_Proofs.v
theories/FontDir_Props.v
theories/Ell_Model.v
theories/Ell_Spec.v
theories/Ell_Proofs.v
theories/Ell_Props.v
theories/MemArea_Model.v
theories/MemArea_Spec.v
theories/MemArea_Proofs.v
theories/MemArea_Props.v
theories/Toa_Model.v
theories/Toa_Spec.v
theories/Toa_Proofs.v
theories/Toa_Props.v
theories/Cursor_Model.v
theories/Cursor_Spec.v
theories/Cursor_Proofs.v
theories/Cursor_Props.v
theories/Vscreen_Model.v
theories/Vscreen_Spec.v
theories/Vscreen_Proofs.v
theories/Vscreen_Props.v
theories/Gray_Model.v
theories/Gray_Spec.v
theories/Gray_Proofs.v
theories/Gray_Props.v
theories/Horiz_Model.v
theories/Horiz_Spec.v
theories/Horiz_Proofs.v
theories/Horiz_Props.v
theories/Double_Model.v
theories/Double_Spec.v
theories/Double_Proofs.v
theories/Double_Props.v
