-Q theories Verif
theories/Base.v
theories/NameM.v
theories/WireM.v
theories/RRM.v
theories/OrdM.v
theories/SerM.v
theories/Base32M.v
theories/ValM.v
theories/QueryM.v
theories/JsonM.v
theories/HttpM.v
theories/WasmM.v
theories/WasmSpec.v
theories/BaseP.v
theories/NameSpec.v
theories/OrdSpec.v
theories/NameP.v
theories/OrdP.v
theories/Prop_Names.v
theories/WireSpec.v
theories/WireP.v
theories/BitmapSpec.v
theories/BitmapP.v
theories/RecSpec.v
theories/RecP.v
theories/RecP2.v
theories/RecP3.v
theories/RecW.v
theories/Prop_Wire.v
theories/Prop_Records.v
theories/CodecSpec.v
theories/CodecP.v
theories/Prop_Codec.v
theories/OrdRR.v
theories/OrdP2.v
theories/ValSpec.v
theories/SignedSpec.v
theories/HeldP.v
theories/ValP.v
theories/SignedP.v
theories/ValP2.v
theories/ValP3.v
theories/ValP4.v
theories/ValP5.v
theories/VisitP.v
theories/ValW.v
theories/ValW2.v
theories/SortW.v
theories/OrdW.v
theories/Prop_Ord.v
theories/VisitW.v
theories/OrderSpec.v
theories/OrderP.v
theories/DupP.v
theories/OrderW.v
theories/Prop_Order.v
theories/AcceptSpec.v
theories/MergeSpec.v
theories/AcceptP.v
theories/AcceptP2.v
theories/AcceptP3.v
theories/AcceptP4.v
theories/AcceptP5.v
theories/AcceptW.v
theories/MergeP.v
theories/MergeW.v
theories/AcceptW2.v
theories/Prop_Accept.v
theories/Prop_Merge.v
theories/Prop_Ends.v
theories/Prop_Visit.v
theories/Prop_Chain.v
theories/Prop_Total.v
theories/Prop_Sig.v
theories/ResolveSpec.v
theories/ResolveP.v
theories/ResolveW.v
theories/Prop_Resolve.v
theories/QBufP.v
theories/QuerySpec.v
theories/QueryP.v
theories/QueryP2.v
theories/QueryP3.v
theories/QueryP4.v
theories/LeftP.v
theories/WasmP.v
theories/QueryW.v
theories/WasmW.v
theories/DohM.v
theories/DohSpec.v
theories/DohP.v
theories/DohP2.v
theories/Prop_Wasm.v
theories/Prop_Query.v
theories/Prop_Builder.v
theories/TimeSpec.v
theories/TimeP.v
theories/Prop_Time.v
theories/TextSpec.v
theories/TextP.v
theories/HttpSpec.v
theories/HttpP.v
theories/HttpW.v
theories/Prop_Http.v
theories/JsonSpec.v
theories/JsonP.v
theories/JsonP2.v
theories/JsonP3.v
theories/JsonP4.v
theories/JsonP5.v
theories/JsonP6.v
theories/JsonP7.v
theories/SeenSpec.v
theories/SeenP.v
theories/SeenP2.v
theories/SeenW.v
theories/JsonW.v
theories/Prop_Json.v
theories/DbgP.v
theories/SecSpec.v
theories/SecP.v
theories/SecP2.v
theories/SecP3.v
theories/SecW.v
theories/WildSpec.v
theories/WildP.v
theories/WildW.v
theories/Prop_Wild.v
theories/Prop_Sec.v
theories/Prop_Debug.v
theories/LiveSpec.v
theories/LiveP.v
theories/LiveP2.v
theories/LiveP3.v
theories/DohP3.v
theories/LiveW.v
theories/LiveW2.v
theories/LookupSpec.v
theories/LookupP.v
theories/LookupP2.v
theories/LookupW.v
theories/LookupW2.v
theories/DohW.v
theories/Prop_Doh.v
theories/Prop_Live.v
theories/Prop_Lookup.v
theories/ServerM.v
theories/ServerSpec.v
theories/ServerP.v
theories/ServerP2.v
theories/ServerW.v
theories/ServerW2.v
theories/Prop_Server.v
theories/FuzzM.v
theories/FuzzSpec.v
theories/FuzzP.v
theories/FuzzW.v
theories/Prop_Fuzz.v
theories/AnswerSpec.v
theories/AnswerP.v
theories/AnswerW.v
theories/Prop_Answer.v
theories/ShaW.v
theories/RepoVecW.v
theories/RepoW.v
theories/RepoFuzzW.v
theories/Prop_Seen.v
theories/ClockSpec.v
theories/ClockP.v
theories/ClockW.v
theories/Prop_Clock.v
theories/UnsupSpec.v
theories/UnsupP.v
theories/UnsupW.v
theories/Prop_Unsup.v
theories/Rfc9102Spec.v
theories/Rfc9102P.v
theories/Rfc9102W.v
theories/Prop_Rfc9102.v
theories/SizeP.v
theories/SizeW.v
theories/Prop_Size.v
theories/TrimSpec.v
theories/TrimP.v
theories/TrimW.v
theories/Prop_Trim.v
theories/HashM.v
theories/HashSpec.v
theories/HashP.v
theories/HashW.v
theories/Prop_Hash.v
theories/CacheSpec.v
theories/CacheP.v
theories/CacheW.v
theories/Prop_Cache.v
theories/TieSpec.v
theories/TieP.v
theories/TieP2.v
theories/TieW.v
theories/Prop_Tie.v
theories/StarSpec.v
theories/StarP.v
theories/StarW.v
theories/Prop_Star.v
theories/RevokeSpec.v
theories/RevokeP.v
theories/RevokeW.v
theories/Prop_Revoke.v
theories/MoreSpec.v
theories/MoreP.v
theories/MoreW.v
theories/Prop_More.v
theories/RollSpec.v
theories/RollP.v
theories/RollW.v
theories/Prop_Roll.v
theories/RulesSpec.v
theories/RulesP.v
theories/RulesW.v
theories/Prop_Rules.v
theories/WhySpec.v
theories/WhyP.v
theories/WhyW.v
theories/Prop_Why.v
theories/CanonSpec.v
theories/CanonP.v
theories/CanonW.v
theories/Prop_Canon.v
theories/AlikeSpec.v
theories/AlikeP.v
theories/AlikeW.v
theories/Prop_Alike.v
theories/WholeSpec.v
theories/WholeP.v
theories/WholeW.v
theories/Prop_Whole.v
theories/PubSpec.v
theories/NextSpec.v
theories/NextP.v
theories/NextW.v
theories/Prop_Next.v
theories/TraceM.v
theories/TraceP.v
theories/TraceSpec.v
theories/TraceW.v
theories/Prop_Trace.v
theories/StepM.v
theories/StepP.v
theories/StepW.v
theories/Prop_Step.v
theories/ArriveSpec.v
theories/ArriveP.v
theories/ArriveP2.v
theories/ArriveW.v
theories/Prop_Arrive.v
theories/CostSpec.v
theories/CostP.v
theories/CostP2.v
theories/CostW.v
theories/Prop_Cost.v
theories/MatchSpec.v
theories/MatchP.v
theories/MatchW.v
theories/Prop_Match.v
theories/ReadM.v
theories/ReadP.v
theories/Prop_Read.v
theories/SameSpec.v
theories/SameP.v
theories/SameW.v
theories/Prop_Same.v
theories/BothP.v
theories/BothW.v
theories/Prop_Both.v
theories/ShownP.v
theories/ShownW.v
theories/Prop_Shown.v
theories/StepSpec.v
theories/PubP.v
theories/PubW.v
theories/Prop_Pub.v
theories/EndSpec.v
theories/EndP.v
theories/EndW.v
theories/Prop_End.v
theories/LocalSpec.v
theories/LocalP.v
theories/LocalW.v
theories/Prop_Local.v
theories/WriteM.v
theories/WriteSpec.v
theories/WriteP.v
theories/WriteW.v
theories/Prop_Write.v
