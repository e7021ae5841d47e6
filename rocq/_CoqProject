-Q theories Verif
theories/Base.v
theories/L_Builder.v
theories/L_Convert.v
theories/L_Convert2.v
theories/L_Goni.v
theories/L_Lattice.v
theories/L_LinAlg.v
theories/L_Mat.v
theories/L_NexusFile.v
theories/L_NexusLinks.v
theories/L_Plain.v
theories/L_Reso.v
theories/L_Rewrite.v
theories/L_Save.v
theories/L_SaveGet.v
theories/L_SaveScan.v
theories/L_ScanData.v
theories/L_ScanData2.v
theories/L_ScanFields.v
theories/L_ScanInfo.v
theories/L_Sort.v
theories/L_Str.v
theories/L_UB.v
theories/L_Utilities.v
theories/LinAlg.v
theories/M_Angles.v
theories/M_Broker.v
theories/M_Builder.v
theories/M_Components.v
theories/M_Conv.v
theories/M_ConvFit.v
theories/M_Convert.v
theories/M_Curve.v
theories/M_DelQ.v
theories/M_Ellipse.v
theories/M_EllipsePlot.v
theories/M_Ellipsoid.v
theories/M_Filter.v
theories/M_Fit.v
theories/M_FitRun.v
theories/M_Goni.v
theories/M_Gui.v
theories/M_Hkle.v
theories/M_InstrumentFile.v
theories/M_Interrupt.v
theories/M_Labels.v
theories/M_Lattice.v
theories/M_Load.v
theories/M_Logs.v
theories/M_Manager.v
theories/M_Mat.v
theories/M_Nexus.v
theories/M_Plotter.v
theories/M_Project.v
theories/M_Proxy.v
theories/M_Reso.v
theories/M_Sample.v
theories/M_SampleFile.v
theories/M_Scan.v
theories/M_ScanData.v
theories/M_ScanInfo.v
theories/M_ScanPlot.v
theories/M_Spice.v
theories/M_Startup.v
theories/M_Tas.v
theories/M_Tavi.v
theories/M_UB.v
theories/M_Utilities.v
theories/M_Workspace.v
theories/P_Again.v
theories/P_Align.v
theories/P_Angles.v
theories/P_Broker.v
theories/P_Builder.v
theories/P_Builder2.v
theories/P_Builder3.v
theories/P_Builder4.v
theories/P_Builder5.v
theories/P_Builder6.v
theories/P_Combine.v
theories/P_Components.v
theories/P_Components2.v
theories/P_Conv.v
theories/P_ConvFit.v
theories/P_ConvInts.v
theories/P_Convert.v
theories/P_Curve.v
theories/P_DelQ.v
theories/P_Ellipse.v
theories/P_EllipsePlot.v
theories/P_Energy.v
theories/P_Filter.v
theories/P_Filter2.v
theories/P_Fit.v
theories/P_FitRun.v
theories/P_Folder.v
theories/P_Frames.v
theories/P_Goni.v
theories/P_Grid.v
theories/P_Gui.v
theories/P_Hkle.v
theories/P_InstrumentFile.v
theories/P_Integers.v
theories/P_Interrupt.v
theories/P_Labels.v
theories/P_Lattice.v
theories/P_Load.v
theories/P_Load2.v
theories/P_LoadUB.v
theories/P_Logs.v
theories/P_Manager.v
theories/P_Nexus.v
theories/P_NexusFile.v
theories/P_Plotter.v
theories/P_Project.v
theories/P_Proxy.v
theories/P_Quadric.v
theories/P_R0.v
theories/P_Request.v
theories/P_Reso.v
theories/P_Rewrite.v
theories/P_SampleFile.v
theories/P_Save.v
theories/P_Scan.v
theories/P_ScanData.v
theories/P_ScanData2.v
theories/P_ScanData3.v
theories/P_ScanFields.v
theories/P_ScanInfo.v
theories/P_ScanInfo2.v
theories/P_ScanPlot.v
theories/P_Spice.v
theories/P_Spice2.v
theories/P_Startup.v
theories/P_Tavi.v
theories/P_Tavi2.v
theories/P_Tilt.v
theories/P_UB.v
theories/P_UBConf.v
theories/P_Validate.v
theories/P_Widths.v
theories/P_Workspace.v
theories/PySort.v
theories/PyStr.v
theories/S_Conv.v
theories/S_ConvFit.v
theories/S_Convert.v
theories/S_Energy.v
theories/S_Frame.v
theories/S_Geom.v
theories/S_Goni.v
theories/S_Grid.v
theories/S_Hkle.v
theories/S_Lattice.v
theories/S_Mat.v
theories/S_Plotter.v
theories/S_Request.v
theories/S_Reso.v
theories/S_Save.v
theories/S_ScanData.v
theories/S_Str.v
theories/S_UB.v
