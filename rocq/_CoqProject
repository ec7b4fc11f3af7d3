-Q theories Verif
theories/Base.v
theories/F64.v
theories/Pairing.v
theories/PairingProofs.v
theories/Num.v
theories/BeamPads.v
theories/Transporter.v
theories/SpecTransport.v
theories/TransportProofs.v
theories/PositionProofs.v
theories/PadGridData.v
theories/PadCentersData.v
theories/PadGrid.v
theories/PadGridProofs.v
theories/Simulator.v
theories/KinFile.v
theories/SpecSim.v
theories/SimulatorProofs.v
theories/P_Pairing.v
theories/P_Position.v
theories/P_Transport.v
theories/F64Bounds.v
theories/TransportF64.v
theories/P_TransportF64.v
theories/MeshReal.v
theories/P_Mesh.v
theories/P_Simulator.v
theories/Response.v
theories/Writer.v
theories/SpecWriter.v
theories/WriterProofs.v
theories/SpecRun.v
theories/P_RunSim.v
theories/Parameters.v
theories/P_Writer.v
theories/P_Response.v
theories/P_Cloud.v
theories/P_GetResponse.v
theories/Nucleus.v
theories/Solver.v
theories/SpecSolver.v
theories/P_Solver.v
theories/P_Electrons.v
theories/P_Braking.v
theories/Reaction.v
theories/SpecReaction.v
theories/ReactionProofs.v
theories/P_Reaction.v
theories/Pipeline.v
theories/SpecPipeline.v
theories/PipelineProofs.v
theories/P_Pipeline.v
theories/Sampling.v
theories/P_Sampling.v
theories/SpecKinFile.v
theories/P_KinFile.v
theories/P_Generate.v
theories/P_Detect.v
theories/P_Rest.v
theories/P_Motion.v
theories/P_Diffusion.v
theories/P_Start.v
theories/P_Names.v
theories/P_WriterFail.v
theories/P_Parameters.v
theories/KinF64.v
theories/P_KinF64.v
theories/P_OnTrack.v
theories/KinChain.v
theories/P_KinChain.v
theories/P_EventSymmetry.v
theories/P_Curve.v
theories/P_Complete.v
theories/P_Gain.v
theories/P_Chain.v
theories/P_Energy.v
theories/P_Beam.v
theories/ElectronsF64.v
theories/P_ElectronsF64.v
theories/P_Calor.v
theories/P_Allowed.v
theories/MotionF64.v
theories/P_MotionF64.v
theories/ConfigObj.v
theories/P_ConfigObj.v
theories/SamplingF64.v
theories/P_SamplingF64.v
theories/P_Superposition.v
theories/P_ResponseF64.v
theories/P_StoredCharge.v
theories/P_Shell.v
theories/P_EventF64.v
theories/VectorF64.v
theories/P_VectorF64.v
theories/P_MeshF64.v
theories/P_CalorDiff.v
theories/P_NeverFails.v
theories/P_StoredDiff.v
theories/StartF64.v
theories/P_Budget.v
theories/RunF64.v
theories/P_RunF64.v
theories/P_ExcitF64.v
theories/P_Script.v
theories/P_Frequency.v
theories/P_Balance.v
theories/P_Isotropy.v
theories/P_Smear.v
theories/Session.v
theories/P_Session.v
theories/PadGeometry.v
theories/P_Geometry.v
theories/P_Rejection.v
theories/Show.v
theories/P_Show.v
theories/P_Reach.v
theories/P_Bias.v
theories/P_Spot.v
theories/P_Box.v
theories/P_Resolution.v
theories/P_Centre.v
