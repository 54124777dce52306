-Q theories Verif

theories/PyVal.v
theories/Bits.v
theories/Float64.v
theories/FloatX.v
theories/Utf8.v
theories/Adapters.v
theories/AdapterSpec.v
theories/Construct.v
theories/G_generics.v
theories/G_config.v
theories/G_time.v
theories/G_properties.v
theories/G_sensor.v
theories/G_health.v
theories/G_scene.v
theories/G_onoff.v
theories/G_level.v
theories/G_battery.v
theories/G_property.v
theories/G_lightness.v
theories/G_ctl.v
theories/G_debug.v
theories/G_debugV2.v
theories/G_el.v
theories/G_elt.v
theories/G_gateway.v
theories/G_lec.v
theories/G_nds.v
theories/G_rrule.v
theories/Size.v
theories/Spec.v
theories/Master.v
theories/AdapterProofs1.v
theories/AdapterProofs2.v
theories/AdapterProofs3.v
theories/AdapterProofs4.v
theories/Access.v
theories/T_vectors.v
theories/AccessProofs.v
theories/Conform.v
theories/Local.v
theories/P_access.v
theories/P_local.v
theories/BitLayout.v
theories/Deps.v
theories/Layout.v
theories/Doc.v
theories/P_int.v
theories/P_keys.v
theories/P_transition.v
theories/Uses.v
theories/P_scale.v
theories/P_log.v
theories/P_field.v
theories/P_time.v
theories/P_layout.v
theories/P_params.v
theories/P_submsg.v
theories/P_optional.v
theories/P_ignore.v
theories/P_text.v
theories/P_sensor.v
theories/P_descriptor.v
theories/P_property.v
theories/Effects.v
theories/P_effects.v
theories/Reread.v
theories/Sound.v
theories/SoundAdapt.v
theories/P_sound.v
theories/Names.v
theories/T_names.v
theories/Vocab.v
theories/P_names.v
theories/Capnp.v
theories/P_capnp.v
theories/G_capnp.v
theories/P_schema.v
theories/Shape.v
theories/T_capnp.v
theories/P_fits.v
theories/Recode.v
theories/Carry.v
theories/CarryAdapt.v
theories/CarryCheck.v
theories/CarryRt.v
theories/P_recode.v
theories/Codes.v
theories/P_codes.v
theories/Grammar.v
theories/GrammarProofs.v
theories/GrammarAccept.v
theories/P_grammar.v
theories/PropValues.v
theories/PropProofs.v
theories/PropForms.v
theories/PropTables.v
theories/P_values.v
theories/P_gateway.v
theories/LayoutAccept.v
theories/Limits.v
theories/P_defaults.v
theories/P_transmit.v
theories/P_contents.v
theories/P_limits.v
