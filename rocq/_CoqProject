-Q theories Verif
theories/M_Prim.v
theories/M_Words.v
theories/M_Llvm.v
theories/M_Intr.v
theories/M_Div.v
theories/M_Mul.v
theories/M_Ops.v
theories/M_UintApi.v
theories/M_IntApi.v
theories/Spec.v
theories/P_Words.v
theories/P_Llvm.v
theories/P_AddSub.v
theories/P_Bits.v
theories/P_Mul.v
theories/P_Div.v
theories/P_DivKnuth.v
theories/P_IntDiv.v
theories/P_Ops.v
theories/P_Uint.v
theories/P_Int.v
theories/Spec_Shift.v
theories/P_Forms.v
theories/T_Base.v
theories/T_Uint.v
theories/T_Int.v
theories/T_Ops.v
theories/Spec_Bits.v
theories/P_BitsApi.v
theories/P_Count.v
theories/P_Bytes.v
theories/T_Bits.v
theories/Spec_Fold.v
theories/P_Pow.v
theories/P_Pow2.v
theories/T_Pow.v
theories/M_Convert.v
theories/Spec_Convert.v
theories/P_Convert.v
theories/T_Convert.v
theories/M_Float.v
theories/Spec_Float.v
theories/P_Float.v
theories/P_Round.v
theories/T_Float.v
theories/M_Parse.v
theories/Spec_Parse.v
theories/P_Parse.v
theories/P_Literal.v
theories/T_Parse.v
theories/M_Fmt.v
theories/Spec_Fmt.v
theories/P_Fmt.v
theories/T_Fmt.v
theories/M_Serde.v
theories/Spec_Serde.v
theories/P_Serde.v
theories/P_SerdeBytes.v
theories/P_SerdeNum.v
theories/T_Serde.v
theories/Spec_Builds.v
theories/P_Backend.v
theories/T_Llvm.v
theories/P_Builds.v
theories/P_BuildsBase.v
theories/P_BuildsText.v
theories/P_Builds1.v
theories/P_Builds2.v
theories/P_Builds3.v
theories/P_Builds4.v
theories/P_BuildsAll.v
theories/T_Builds.v
theories/P_Intrinsics.v
theories/T_Intr.v
theories/M_Mem.v
theories/Spec_Mem.v
theories/P_Mem.v
theories/T_Mem.v
theories/Spec_FloatTrip.v
theories/P_FloatTrip.v
theories/T_FloatTrip.v
theories/Spec_Compat.v
theories/P_Compat.v
theories/P_Order.v
theories/T_Compat.v
theories/Spec_Panic.v
theories/P_PanicBase.v
theories/P_Panic.v
theories/T_Panic.v
theories/P_Laws.v
theories/T_Laws.v
theories/P_Exp.v
theories/T_Exp.v
theories/M_Misc.v
theories/Spec_Api.v
theories/P_Clamp.v
theories/Spec_Embed.v
theories/P_Embed.v
theories/T_Embed.v
theories/M_Visit.v
theories/Spec_Visit.v
theories/P_Visit.v
theories/T_Visit.v
theories/M_Forms.v
theories/Spec_Forms.v
theories/P_OpForms.v
theories/T_Forms.v
theories/M_Fuzz.v
theories/Spec_Fuzz.v
theories/P_Fuzz.v
theories/T_Fuzz.v
theories/Spec_Docs.v
theories/P_Docs.v
theories/T_Docs.v
theories/Spec_Message.v
theories/P_Message.v
theories/T_Message.v
theories/Spec_ByteLaws.v
theories/P_ByteLaws.v
theories/T_ByteLaws.v
theories/Spec_Reject.v
theories/P_Reject.v
theories/T_Reject.v
theories/M_Link.v
theories/Spec_Link.v
theories/P_Link.v
theories/T_Link.v
theories/Spec_Program.v
theories/Spec_Clients.v
theories/P_Program.v
theories/T_Program.v
theories/P_Clients.v
theories/T_Clients.v
theories/M_Bench.v
theories/Spec_Bench.v
theories/P_Bench.v
theories/T_Bench.v
theories/Spec_Idioms.v
theories/P_Idioms.v
theories/T_Idioms.v
theories/Spec_Limbs.v
theories/P_Limbs.v
theories/T_Limbs.v
