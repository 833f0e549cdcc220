-Q theories Verif
theories/Base.v
theories/EC_Abs.v
theories/M_Util.v
theories/M_Codec.v
theories/Spec_Util.v
theories/Spec_Wire.v
theories/P_Util.v
theories/P_Codec.v
theories/P_CodecProps.v
theories/P_Extra.v
theories/Prop_Util.v
theories/Spec_Codec2.v
theories/P_Codec2.v
theories/Prop_Codec.v
theories/M_Record.v
theories/Spec_Record.v
theories/P_RecordW.v
theories/P_RecordR.v
theories/P_Record.v
theories/P_Record2.v
theories/P_Record3.v
theories/P_RecordX.v
theories/P_RecordA.v
theories/Prop_Record.v
theories/M_Word.v
theories/M_Sha2.v
theories/M_Chacha20.v
theories/M_Poly1305.v
theories/M_Aead.v
theories/M_Prf.v
theories/Spec_Crypto.v
theories/P_Word.v
theories/P_Chacha.v
theories/P_Sha2.v
theories/P_Prf.v
theories/P_Poly.v
theories/P_Poly2.v
theories/P_Aead.v
theories/P_AeadX.v
theories/Prop_Crypto.v
theories/NT_Prime.v
theories/Spec_P256.v
theories/NT_P256.v
theories/M_P256.v
theories/P_Limbs.v
theories/P_Mult.v
theories/P_P256conv.v
theories/P_Inverse.v
theories/P_Fp.v
theories/EC_Jac.v
theories/P_Points.v
theories/NT_Order.v
theories/P_Scalar.v
theories/Spec_Point.v
theories/P_P256X.v
theories/Prop_P256.v
theories/M_Ecdhe.v
theories/Spec_Ecdhe.v
theories/P_Ecdhe.v
theories/Prop_Ecdhe.v
theories/M_Client.v
theories/Spec_Client.v
theories/P_Halt.v
theories/P_Client.v
theories/P_Client2.v
theories/P_App.v
theories/P_App2.v
theories/P_App3.v
theories/P_Client3.v
theories/P_Client4.v
theories/P_Panic.v
theories/P_Ops.v
theories/P_Client5.v
theories/P_Fault.v
theories/Spec_Client2.v
theories/P_Pending.v
theories/P_Agree.v
theories/P_Bound.v
theories/P_Rand.v
theories/P_Client6.v
theories/Spec_Client3.v
theories/P_Eof.v
theories/P_KeySpace.v
theories/P_Peer.v
theories/Spec_Client4.v
theories/P_Decode.v
theories/P_Alert.v
theories/P_Open.v
theories/P_Exact.v
theories/Prop_Client.v
theories/Prop_Client2.v
theories/Prop_Client3.v
theories/M_Leak.v
theories/M_Leak2.v
theories/P_Leak.v
theories/P_LeakP.v
theories/P_LeakT.v
theories/P_Leak2.v
theories/P_LeakA.v
theories/P_LeakB.v
theories/P_LeakS.v
theories/P_LeakX.v
theories/P_LeakY.v
theories/Prop_Leak.v
theories/T_Repo.v
theories/M_Std.v
theories/Spec_Std.v
theories/P_Std.v
theories/Prop_Std.v
theories/Spec_Talk.v
theories/P_Talk.v
theories/P_Talk2.v
theories/P_Talk3.v
theories/Spec_Talk2.v
theories/P_Talk4.v
theories/P_Talk5.v
theories/P_Server.v
theories/Prop_Talk.v
theories/M_Test.v
theories/Spec_Test.v
theories/P_Test.v
theories/Prop_Test.v
theories/Spec_Api.v
theories/P_Api.v
theories/Prop_Api.v
theories/Spec_Mode.v
theories/P_Mode.v
theories/P_Mode2.v
theories/Prop_Mode.v
theories/Spec_Dist.v
theories/P_Dist.v
theories/Prop_Dist.v
theories/Spec_Blame.v
theories/P_Blame.v
theories/Prop_Blame.v
theories/Spec_Program.v
theories/P_Program.v
theories/P_Program2.v
theories/Prop_Program.v
theories/Spec_Spy.v
theories/P_Spy.v
theories/Prop_Spy.v
theories/Spec_Relay.v
theories/P_Relay.v
theories/Prop_Relay.v
theories/Spec_Accept.v
theories/P_Accept.v
theories/Prop_Accept.v
theories/Spec_Receive.v
theories/P_Receive.v
theories/Prop_Receive.v
theories/Spec_Build.v
theories/P_Build.v
theories/Prop_Build.v
theories/M_Cipher.v
theories/Spec_Cipher.v
theories/P_Cipher.v
theories/Prop_Cipher.v
theories/Spec_Life.v
theories/P_Life.v
theories/Prop_Life.v
theories/M_Small.v
theories/Spec_Small.v
theories/P_Small.v
theories/Prop_Small.v
theories/Spec_Broken.v
theories/Spec_Any.v
theories/P_Broken.v
theories/P_Any.v
theories/Prop_Broken.v
theories/Prop_Any.v
theories/Spec_Schema.v
theories/P_Schema.v
theories/Prop_Schema.v
theories/Spec_Loop.v
theories/P_Loop.v
theories/Prop_Loop.v
theories/Spec_Wrap.v
theories/P_Wrap.v
theories/Prop_Wrap.v
theories/M_Raw.v
theories/Spec_Raw.v
theories/P_Raw.v
theories/Prop_Raw.v
theories/Spec_Shape.v
theories/P_Shape.v
theories/Prop_Shape.v
theories/P_Twice.v
theories/Prop_Twice.v
theories/NT_P1305.v
theories/Spec_Forge.v
theories/P_Forge.v
theories/Prop_Forge.v
theories/Spec_Tries.v
theories/P_Tries.v
theories/Prop_Tries.v
theories/M_Std2.v
theories/Spec_Laws.v
theories/P_Laws.v
theories/P_Laws2.v
theories/Prop_Laws.v
theories/Spec_Pad.v
theories/P_Pad.v
theories/P_Pad2.v
theories/Prop_Pad.v
theories/Spec_Decode256.v
theories/P_Decode256.v
theories/P_Decode256c.v
theories/Prop_Decode256.v
theories/Spec_Other.v
theories/P_Other.v
theories/P_Other2.v
theories/Prop_Other.v
theories/Spec_Crash.v
theories/P_Crash.v
theories/P_Crash2.v
theories/P_Crash3.v
theories/Prop_Crash.v
theories/Spec_Collide.v
theories/P_Collide.v
theories/P_Collide2.v
theories/P_Collide3.v
theories/Prop_Collide.v
theories/Spec_Rounds.v
theories/P_Rounds.v
theories/P_Rounds2.v
theories/Prop_Rounds.v
theories/Spec_Origin.v
theories/P_Origin.v
theories/P_Origin2.v
theories/Prop_Origin.v
theories/Spec_Hold.v
theories/P_Hold.v
theories/P_Hold2.v
theories/Prop_Hold.v
theories/Spec_Face.v
theories/P_Face.v
theories/P_Venture.v
theories/Prop_Face.v
theories/Spec_Commit.v
theories/P_Commit.v
theories/P_Commit2.v
theories/P_Commit3.v
theories/Prop_Commit.v
theories/Spec_Repeat.v
theories/P_Repeat.v
theories/P_Repeat2.v
theories/P_Repeat3.v
theories/Prop_Repeat.v
theories/Spec_Guess.v
theories/P_Guess.v
theories/P_Guess2.v
theories/Prop_Guess.v
